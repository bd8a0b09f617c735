(** The libraries of the four languages on the texts of the conformance suite (SuiteData.v). *)
From Coq Require Import Floats.SpecFloat.
From Verif Require Import Base Utf8 Num Rules Types Iface Checker Regex Known GoSem Outcome Java Cc Py LitSpec
  Harness HarnessMain HarnessMainSpec SuiteData.

(** The patterns of tests/harness/cases: [(?i)^[a-z0-9]+$] (Go folds K and s with two more characters),
    [\* \\ \w] and [^[\x00-\x7F]+$]. *)
Definition re_alnum : bytes := bs "(?i)^[a-z0-9]+$".
Definition re_escapes : bytes := bs "\* \\ \w".
Definition re_ascii : bytes := bs "^[" ++ [0%N] ++ bs "-" ++ [127%N] ++ bs "]+$".
Definition ascii_alnum (c : N) : bool := ((48 <=? c) && (c <=? 57) || (65 <=? c) && (c <=? 90) || (97 <=? c) && (c <=? 122))%N.
Definition any_re : regex := RStar (RClass (fun _ => true)).
Definition alnum_re : regex := plus (RClass (fun c => ascii_alnum c || (c =? 0x17F)%N || (c =? 0x212A)%N)).
Definition escapes_re : regex :=
  RCat any_re (RCat (chr 42) (RCat (chr 32) (RCat (chr 92) (RCat (chr 32)
    (RCat (RClass (fun c => ascii_alnum c || (c =? 95)%N)) any_re))))).
Definition ascii_re : regex := plus (RClass (fun c => (c <? 128)%N)).

(** All of these compile. *)
Definition suite_re_ok (p : bytes) : bool :=
  existsb (bytes_eqb p) [re_header_name; re_header_value; re_header_string; re_alnum; re_escapes; re_ascii].

Definition suite_match (p : bytes) (l : list N) : bool :=
  if bytes_eqb p re_header_name then rmatch header_name_re l
  else if bytes_eqb p re_header_value then rmatch header_value_re l
  else if bytes_eqb p re_header_string then rmatch header_string_re l
  else if bytes_eqb p re_alnum then rmatch alnum_re l
  else if bytes_eqb p re_escapes then rmatch escapes_re l
  else if bytes_eqb p re_ascii then rmatch ascii_re l
  else false.

(** The addresses of the suite that are IP addresses, and their sixteen bytes. *)
Definition suite_ip4 : list (bytes * bytes) := [(bs "192.168.0.1", repeat 0%N 10 ++ [255; 255; 192; 168; 0; 1]%N)].
Definition suite_ip6 : list (bytes * bytes) :=
  [(bs "3e::99", [0; 0x3e]%N ++ repeat 0%N 13 ++ [0x99]%N);
   (bs "2001:0db8:85a3:0000:0000:8a2e:0370:7334", [0x20; 1; 0x0d; 0xb8; 0x85; 0xa3; 0; 0; 0; 0; 0x8a; 0x2e; 3; 0x70; 0x73; 0x34]%N);
   (bs "2001:db8:85a3::8a2e:370:7334", [0x20; 1; 0x0d; 0xb8; 0x85; 0xa3; 0; 0; 0; 0; 0x8a; 0x2e; 3; 0x70; 0x73; 0x34]%N)].
Definition lookup {A} (l : list (bytes * A)) (s : bytes) : option A :=
  match find (fun e => bytes_eqb s (fst e)) l with Some e => Some (snd e) | None => None end.
Definition known {A} (l : list (bytes * A)) (s : bytes) : bool := existsb (fun e => bytes_eqb s (fst e)) l.

(** The mailboxes of the suite that net/mail parses, and their addresses. *)
Definition suite_mail : list (bytes * bytes) :=
  (bs "John Smith <foo@bar.com>", bs "foo@bar.com") ::
  map (fun s => (s, s))
    [bs "foo@bar.com"; bs "x0123456789012345678901234567890123456789012345678901234567890123456789@example.com";
     bs "foo@x0123456789012345678901234567890123456789012345678901234567890123456789.com"; bs "foo@-bar.com"].
(** The references of the suite that net/url parses, and whether they are absolute. *)
Definition suite_url : list (bytes * bool) := [(bs "http://example.com/foo/bar?baz=quux", true); (bs "/foo/bar?baz=quux", false)].

(** Go's standard library at the time [now] (in nanoseconds). *)
Definition suite_orc (now : Z) : oracles := mkOracles
  (fun p s => suite_match p (runes s)) (lookup (suite_ip4 ++ suite_ip6)) (lookup suite_mail) (lookup suite_url) now.

(** The suite, if it is started at the time [t0] (in seconds), with and without the lines. *)
Definition to_case (x : Z * string * msgval * Z) : tcase := match x with (_, n, m, k) => Case n m k end.
Definition suite (t0 : Z) : list tcase := map to_case (suite_cases t0).
(** The types whose rules refer to the time of the validation. *)
Definition clocked (t : tcase) : bool :=
  existsb (String.eqb (c_type t))
    ["TimestampLTNow"; "TimestampGTNow"; "TimestampWithin"; "TimestampLTNowWithin"; "TimestampGTNowWithin"]%string.

(** Java: commons-validator, java.net.URI and re2j on the texts of the suite.  A string of the
    language is a list of UTF-16 units, in which these texts are what they are in UTF-8 as far as they
    are ASCII; the others are rejected before a library sees them. *)
Definition suite_hosts : list bytes := [bs "example.com"; bs "ASD.example.com"; bs "foo-bar.com"; bs "example.com."].
Definition suite_jl (ms : Z) : java_libs := mkJavaLibs
  suite_match (fun s => bytes_eqb s (bs "foo@bar.com")) (fun s => existsb (bytes_eqb s) suite_hosts)
  (known (suite_ip4 ++ suite_ip6)) (known suite_ip4) (known suite_ip6) (lookup suite_url) runes ms.

(** C++: RE2::FullMatch and inet_pton.  The bounds on floats in the suite are whole numbers, for which
    the shortest decimal is exact. *)
Definition escapes_full_re : regex :=
  RCat (chr 42) (RCat (chr 32) (RCat (chr 92) (RCat (chr 32) (RClass (fun c => ascii_alnum c || (c =? 95)%N))))).
Definition suite_cl : cc_libs := mkCcLibs
  (fun p s => if bytes_eqb p re_escapes then rmatch escapes_full_re (runes s) else suite_match p (runes s))
  (known suite_ip4) (known suite_ip6) widen.

(** Python: re, ipaddress, validate_email, urllib and int. *)
Definition re_ascii_py : bytes := bs "^[\x00-\x7f]+$".
Definition suite_pl (now : spec_float) : py_libs := mkPyLibs
  suite_match (fun p s => if bytes_eqb p re_ascii_py then py_whole ascii_re s else false)
  (known suite_ip4) (known suite_ip6) (fun s => known suite_mail s)
  (fun s => lookup [(bs "http://example.com/foo/bar?baz=quux", mkPyUrl true true true false);
                    (bs "/foo/bar?baz=quux", mkPyUrl false false true false);
                    (bs "!@#$%^&*%$#", mkPyUrl false false true true)] s)
  (forallb (fun c => (48 <=? c) && (c <=? 57) || (65 <=? c) && (c <=? 70) || (97 <=? c) && (c <=? 102))%N)
  now.
Definition suite_pn : py_names := mkPyNames (fun n => String.append "tests.harness.cases." n) (fun _ => false) suite_ignored.

(** What the plugin makes of the schema. *)
Definition suite_checked : schema := Eval vm_compute in
  match check_schema suite_re_ok suite_schema with Some s => s | None => mkSchema [] [] [] end.
