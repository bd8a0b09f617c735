# Formal model of envoyproxy/protoc-gen-validate

Everything below is about the pinned source in `/repo`, read as text.  Nothing was run.  The model and
the proofs are in `rocq/theories/` (Coq 8.16.1, logical name `Verif`).

1. [How the model is built](#1-how-the-model-is-built)
2. [Per-property plan](#2-per-property-plan)
3. [Trusted base](#3-trusted-base)
4. [What is modelled and what is not](#4-what-is-modelled-and-what-is-not)
5. [Fragments](#5-fragments)
6. [Findings](#6-findings)
7. [Reading order](#7-reading-order)

## 1. How the model is built

For Go there are two stages, as in the plugin: *generation* (the templates as functions from rules to
syntax trees, `GoGen.v`) and *execution* (an interpreter for those trees, `GoSem.v`).  A theorem about
`Validate()` is about the composition, and statements about the generated text (identifiers declared,
literals) are about the trees.  For Java, C++ and Python the generated code is modelled by its effect:
one function per template, which calls one function per runtime method.

| files | what |
|---|---|
| `Base` `Utf8` `Num` `Regex` | byte strings, Go's UTF-8 decoding, numbers (integers with a range; IEEE values as the standard library's `spec_float`), regular expressions with derivatives |
| `Rules` `Types` | the rule messages of `validate/validate.proto`; descriptors and message values |
| `Time` | durationpb / timestamppb / Go `time` arithmetic with saturation and wrap-around |
| `Iface` | error reasons, indexes, and the oracles for the Go standard library |
| `Checker` | `module/checker.go` |
| `GoIR` `GoGen` `GoSem` `Known` | the Go templates, what they emit, how that runs, and the helper functions they emit |
| `ErrText` | `Error()` of the generated error types |
| `Lit` | literals in Go, C++ and Java source; output paths |
| `Harness` `HarnessMain` | the conformance-test executor, as a transition system of goroutines; the programs it runs |
| `SuiteData` `Suite` | the conformance suite as data (generated by `tools/cases.py`); the libraries on its texts |
| `Java` `JavaGrpc` | generated Java + `pgv-java-stub`; interceptors and validator indexes as machines over call histories |
| `JavaName` | names in generated Java: register.go's use of strcase, the classes with their `validatorFor`, the lookup by ReflectiveValidatorIndex, accessors |
| `JavaConst` | the constants that generated Java declares for rules, their names, types and values, and the references to them |
| `CcName` | names in generated C++ (accessors, cases of oneofs, classes, registration variables), the tables for in, not_in and pattern and the references to them |
| `Cc` | generated C++ + `validate/validate.h` |
| `Py` | `python/protoc_gen_validate/validator.py` |
| `PyLit` | the source of the checks that paste constants into Python, with Jinja's `indent` and Python's `repr` |
| `PyTemplates` `PyLayout` | the Jinja templates of validator.py as they stand (generated by `tools/templates.py`), and which template calls which |
| `Jinja` | Jinja2: lexing with white space control, parsing, rendering, `indent` |
| `Outcome` | how a validation ends in the other languages (passes, rejects, crashes, unimplemented) |
| `Spec` `SpecErr` `Meaning` `Conflict` `LitSpec` `PyLex` `PyLitSpec` `PyLines` `PyRuleSpec` `PyWrapSpec` `PyFieldSpec` `HarnessSpec` `JavaGrpcSpec` | specifications, written from `validate.proto`, the README and language definitions; none uses a function of the model it specifies.  `Meaning` is a second reading of the rules, one rule at a time; `MeaningFacts` proves both readings equivalent |
| `Wt` `Setting` `Values` `JavaSpec` `CcSpec` `PySpec` `PyLayoutSpec` | hypotheses of the theorems: values fit their types, the schema is in a fragment |
| `*Facts`, `Exec*`, `Sim`, `Order`, `Main`, `ValidSame`, `Says`, `HarnessRun`, `PyReach*`, `PyLayout{Cases,More,Field,Link}` | proofs |
| `Example` `JavaEx` `CcEx` `PyEx` `PyLayoutEx` `ConflictEx` `WtDec` `WtMsgDec` | concrete schemas and messages that meet the hypotheses, and deciders for these |
| `Prop*` | the theorems, each followed by `Print Assumptions` and an `Example` that its hypotheses are met |

The core of the Go proof: each template, executed, reports exactly the violated requirements of the
specification, in order (`ExecFacts` .. `ExecMsg`); lifted to whole messages by induction on the height of
the message (`Main`); `Validate` and `ValidateAll` run in lockstep up to the first error (`Sim`, for any
syntax tree, so for everything the templates can emit); map order only permutes errors (`Order`).

A property that the source violates has a theorem named `..._refuted` with a witness that the plugin
accepts.

## 2. Per-property plan

| property | modelled by | proved by |
|---|---|---|
| C01, C04 validity and completeness | GoGen, GoSem against Spec, Meaning | per-template lemmas, induction on message height (PropMain) |
| C02, C03 Validate vs ValidateAll | GoSem | lockstep simulation over syntax, map order by permutation (PropMain) |
| C05-C08, C12-C23 single rules | same | corollaries of C01 for a message with one field in any schema (PropField, PropText) |
| C09-C11 host names, UUIDs, headers | Known, Regex | grammars as inductive/list predicates; derivatives decide the language (PropText) |
| C24-C26 the checker | Checker against Conflict | reflection of the boolean checker; satisfiability of accepted numeric rules characterised (PropChecker) |
| C27 generated Go compiles | GoType: Go's static rules (scopes, unused and redeclared names, types, constants) on the trees and declarations of GoGen; GoFit: the class of rules | equivalence by induction on templates and rules (GoTypeFacts, GoFieldFacts, GoDeclFacts, GoCompile; PropIdent) |
| C44, C45 code that compiles | same; the declared patterns of GoGen; `go_apt` (GoFit) | inversion of the checker gives `supported` (GoExact; PropExact) |
| C28 errors | GoSem, ErrText | the list of errors is the list of violated requirements (PropMain, PropErr) |
| C29, C30 literals, paths | Lit against LitSpec | decoding of the written literal gives back the value (PropLit) |
| C31, C35, C41 Java | Java | per-method exactness, then whole messages (PropJava) |
| C32-C34 interceptors, indexes | JavaGrpc | invariants over all call histories (PropGrpc) |
| C36, C43 Python | Py | as for Java (PropPy) |
| C46 Python's function cache | PyCache: the LRU cache over all histories | invariant on entries; a generated function depends on the descriptor and the messages inside only (PyCacheFacts, PropPyCache) |
| C47 One run of the plugin | Plugin: `Execute`, templates and paths per language, the targets in any order | case analysis, permutation (PluginFacts, PropPlugin) |
| C48 C++ validator registry | CcReg: `validate.h`'s map from types to validators, static initialisers and lookups in any order and thread | invariant on the pointers; a validation depends on nothing else (CcRegFacts, PropCcReg) |
| C49 unimplemented rules in C++ and Java | Cc, Java on schemas that have such rules beside others (SafeSpec) | as C42, with a third outcome that claims nothing (Tells, LangSafe, CcSafe, JavaSafe, PropSafe); induction over what a passing run has executed |
| C50 the field an error names | JavaReport, CcReport, PyReport: the validators again, with the fields their errors name; the text of C++ errors (CcReport); paths to a violated rule (ReportSpec) | erasing the names gives the validators of C40, C42 and C43; each failing check is traced to the rule it implements (ReportFacts, ReportLang, JavaReportFacts, CcReportFacts, PyReportFacts), for Go from what an error explains (ReportGo, PropReport) |
| C37, C42 C++ | Cc | as for Java (PropCc) |
| C38, C39 harness | Harness | invariant, progress and measure over all schedules (PropHarness) |
| C51 conformance runs | HarnessMain: the harness programs of Go, C++, Java, Python, with the encoding of the Python answer | the programs decide as the validators of C01, C41, C42, C43, which are exact, in every order of maps (ValuesSame); the counts of C38 (HarnessMainFacts, PropConform) |
| C52 the conformance suite itself | SuiteData: all cases and the files they use, as terms, written by `tools/cases.py`; Suite: the libraries on the texts that occur | the model is run on every case with the starting time left open (`vm_compute`); the cases that look at the clock by case analysis and `lia` (SuiteFacts, SuiteLangs, PropSuite); the general theorems of C01 and C51 |
| C53 imports of generated Go files | GoFile: the import block, `externalEnums`, `enumPackages`, the enum types that the code of each template names and the local names in scope there, and what Go makes of a qualified name | which types a rule needs is a specification (GoFileSpec); both directions by walking over the templates (GoFileFacts, PropFile); witnesses for the files that do not compile |
| C54 stronger rules | what a stronger rule, list, field, message type and schema is (EvolveSpec `covered`), and how a program sees the messages of another version (`sees`) | monotonicity of each rule's meaning, then by induction on the embedding of messages (EvolveFacts, PropEvolve); witnesses for the additions after which Go accepts more; with the exactness theorems of the four languages for programs in different languages (PropEvolveAll) |
| C55 new fields | as C54; the value of a field that was not sent (`default`) | C54 in both directions; iff-theorems on which defaults are admitted; a rejected default rejects the message |
| C56 order of declarations | `reordered` schemas | both cover each other, hence from C54 |
| C57 the comparison table | rule_comparison.md as data (TableSpec `ticked`), the schema without the rules of a row (`without`), a program with its libraries (`says`) | unticked cells: the programs with and without the rules run in step until one throws (TableFacts, TableLangs); ticked cells: a message type and a message for each row (TableEx), computed in all four models |
| C58 validators found by name | JavaName against protoc's naming (JavaNameSpec); `simple` (pgsgo) is a parameter | the camel casing of strcase with the fixes of register.go computes protoc's, by induction on the name (JavaNameFacts); which names classNameMessage keeps; the first match in the classes and in `validatorFor` is the right one because names are distinct (JavaNameLookup) |
| C59 accessors | the same functions on field and oneof names | as C58 |
| C60 constants in Java | JavaConst against JavaConstSpec, which says which value a rule has and which type it is compared with | the screaming snake case of a name ends in the index and the rule behind underscores, and what is before determines the name up to case and underscores (JavaConstFacts); declarations against uses by cases on the rule |
| C61 names in C++ | CcName against protoc's naming (CcNameSpec); `words`, the part of pgs.Name.Split for camel case, is a parameter | equivalences by induction on names (CcNameFacts) |
| C62 tables in C++ | declarations and references of a file (CcName) against CcNameSpec | a table's name determines message, field and rule if message names have no underscores; declarations against uses by cases on rule and place; the fragment of C42 lies within (CcTableFacts) |
| C63 constants in Python source | PyLit against a reader of Python's string literals (PyLex) | the reader runs through the code, the literal and the message, by induction on the constant; `indent` leaves lines alone (PyLitFacts, PyLitMore); `repr` is undone by the reader (PyReprFacts); the conditions of PySpec suffice (PropPyLit) |
| C64 lines of the Python source | the templates (PyTemplates), parsed and rendered by Jinja, against a reader of Python's lines and blocks (PyLines) | the states that the reader can be in after a template, for any answers of the conditions and any number of rounds of its loops, are collected (PyReach); that this misses none is proved by induction on the rendering (PyReachFacts); the collection itself is computed by the kernel (PyLayoutField, PyLayoutCases, PyLayoutMore), for one field or one member at a time: partial.  The same computation for whole message types (file_template with its loops) was accepted by coqc, which has a virtual machine, but coqchk, which has none, did not finish it in the time there was; so it is not part of this development; PyLayoutLink compares with the places where Py has no code |
| C40 one verdict in four languages | all of the above | `common` (AllSpec.v), shown to lie in the four fragments (AllFacts); `one_verdict_on_common`, `four_agree` (PropAll) |

No property of the list was found inexpressible.

## 3. Trusted base

* Coq 8.16.1's kernel, including `vm_compute` (used for concrete examples, witnesses, and the cases of the conformance suite).
* No axioms of our own, no `Admitted`, no disabled checks.  `Print Assumptions` says "Closed under the
  global context" for every theorem in `Prop*.v`.  The axiom report of the whole development lists seven
  names of the module type `Coq.ssr.ssrunder.Under_rel` (Over_rel, over_rel, over_rel_done, Under_rel,
  Under_rel_from_rel, Under_relE, under_rel_done): they are fields of a module of the standard library's
  ssreflect plugin files that is loaded by `Lia`/`Floats` dependencies; no theorem depends on them.
* That the model says what the source says.  Every definition cites the file and lines it stands for.
* That the semantics of Go, C++, Java, Python and `text/template` used in the model are right where they
  matter (strings and their encodings, integer ranges, comparison of floats, map iteration order, nil).
* Oracles.  What is not modelled is a parameter, universally quantified in the theorems:
  - Go (`oracles` in Iface.v): matching of user patterns, `net.ParseIP`, `mail.ParseAddress`,
    `url.Parse`, the clock (one instant per call).  `oracle_ok` (Wt.v) is all that is assumed of
    them: the engine is right on the three fixed header patterns, and an address has an "@".  It is
    shown to hold of a concrete `ex_orc`.
  - Java (`java_libs`): `re2j` full matching, the commons-validator formats, `java.net.URI`, `InetAddress`,
    IDN, the clock in milliseconds.
  - C++ (`cc_libs`): RE2, `inet_pton`, widening of floats.
  - Python (`py_libs`): `re.search`, `ipaddress`, `validate_email`, `urlparse`, `int(s, 16)`, `time.time()`.
  - The plugin: `SetExt`, `JoinPaths`, `OutputPath` of pgs, Java class names.
  - which patterns compile (`re_ok`), `fmt.Sprint` and `%v` of reasons and indexes, `strconv.IsPrint` above ASCII.
  Theorems of agreement between languages assume that the libraries agree *about the value at hand*
  (`formats_agree`, `py_formats_agree` ...), phrased with the oracles and not with model functions.
* For C53, that pgsgo (v0.5.3) puts the name of the package before the name of a type if and only if the import paths differ.
* For C52, `tools/cases.py`, which turns `tests/harness/executor/cases.go` and the `.proto` files under `tests/harness/cases` into SuiteData.v
  (run `python3 tools/cases.py /repo > rocq/theories/SuiteData.v`; every case carries its line).  All files are one schema; `timestamppb.Now()`
  is a whole second.  The libraries are tables of their answers on the addresses and URLs that occur (Suite.v).
* For C58 and C59, that `github.com/iancoleman/strcase` at 3605ed457bf7 (not in `/repo`) is as in its published source, that protoc names Java
  classes and methods as in JavaNameSpec.v, and that names are ASCII.  For C60, that protoc refuses proto3 messages with two fields
  whose names are the same up to case and underscores, and that Embed() of a list or map type is nil in pgs.  For C61 and C62, that
  PGGUpperCamelCase and Name.Split of pgs are as published, and protoc's names for C++ as in CcNameSpec.v.
* For C63, Python's reading of string literals as in PyLex.v, Jinja's `indent` and CPython's `repr` as in PyLit.v (neither in `/repo`); the names of
  Unicode characters and `str.isprintable` above ASCII are parameters.  Literals in triple quotes have no reading, f-strings are not known.
* For C64, Jinja2 as in Jinja.v and Python's lines as in PyLines.v (neither in `/repo`), and `tools/templates.py`, which copies the templates out of
  validator.py (run `python3 tools/templates.py /repo > rocq/theories/PyTemplates.v`).  Values that a template writes are the letter x: what a
  constant can do to a line is C63.  Conditions are known by their text; PyRuleSpec.v says what they yield for rules.  Jinja drops a line break at
  the end of a template; no template here has one.
* Recursion over messages uses fuel; the theorems hold for every fuel above the height of the message
  (for Go, `validate` supplies it).

## 4. What is modelled and what is not

Modelled: all of `module/checker.go`; the Go templates for every rule type, fields, items, keys, values,
wrappers, oneofs, messages, with the package-level variables they declare and the error types; the
generated helpers; string/byte/rune literals of Go, C++, Java; `module/validate.go` and the output paths; the error texts; the conformance
executor (`tests/harness/executor`) and the programs it runs; Java stub library, generated Java, both gRPC interceptors, the three
validator indexes; `validate.h` and the C++ templates; all of the Python validator's templates, including
which of them are not Python or raise while they are rendered.

Not modelled:
* protoc, protoc-gen-star and protobuf runtimes.  Go names are given (pgsgo's mangling is not modelled).
  The pinned pgs v0.5.3 knows no proto3 `optional`; proto2 pointers to scalars are not modelled.
* `main.go`; how pgs renders, formats and writes the artifacts.
* Go text as text: the templates are functions to trees; white space, comments and the
  `_ = x` lines are left out.  Of the imports, those of the enum packages are in GoFile.v.
* float literals as decimal text: `lit` of a float is taken as exact except NaN, infinities (not Go) and -0.
* Java: the fields protoc renames (but for `class`), nullness of protobuf getters.  gRPC is the environment.
* C++: compilation; the reasons and indexes in error texts.  Java: the reasons and values in exceptions.
* Python: error texts but for the name they start with and the constants of C63; which template `rule_type` chooses, as text (C64 allows any); keyword names of fields; `exec` and `locals()`; a field named "item".
* The Bazel and Maven builds.

## 5. Fragments

`setting` (Setting.v) is the hypothesis of the Go theorems: the checker accepts the schema `sc0`, making `sc`
of it; `sc0` is well-formed (protobuf guarantees it: distinct names, map keys of key types, messages exist);
`sc` is `supported`; `oracle_ok`.  `supported` (Wt.v) excludes only schemas for which the plugin emits Go that
does not compile or for which it panics although its checker passed:
* numbers that are not Go constants: NaN, infinities, durations above 9223372036 s, bytes below 0x10
  in the tables of `in`/`not_in`;
* duplicates in `in`/`not_in` (duplicate keys of a map literal);
* `in`/`not_in` and patterns in positions for which no table or variable is declared (items of numbers, bytes,
  any, durations; keys; values), wrapper rules on list or map elements, BytesValue `in`;
* `uuid` where the file does not declare the pattern (only nested messages use it);
* patterns on both keys and values of one map (declared twice); two declarations of the same name;
* sizes of 2^63 and above; rules on a type they do not fit (the checker lets any/duration/timestamp rules through).

The Java, C++ and Python fragments (`JavaSpec.v`, `CcSpec.v`, `PySpec.v`) say which constants are constants of the
language and denote what the rule says, which rules are implemented, and on which values library and
language agree with protobuf.  Each clause has a comment, and the deviations behind the clauses are
the `_refuted` theorems of PropJava, PropCc and PropPy.

## 6. Findings

Things that a user might not expect.  (R) marks those with a `_refuted` theorem or a similar witness in `Prop*.v`.

Checker
* Accepts contradictory rules: `int32 {gt: 5, lt: 6}`, `uint32 {lt: 0}`, `string {len_bytes: 2, prefix: "abc"}`,
  `enum {const: 1, in: [2]}` (R).
* Rules of `items`/`keys`/`values` of kind `message` are never checked; any, duration and timestamp rules are accepted
  on fields of any type; `any.required` on another message type disables the validation of that field (R).
* Refuses some consistent rules: timestamps far from 1970 wrap in `UnixNano`; durations that saturate compare as
  equal; string lengths above 2^63 become negative (R).
* bytes `len` with `min_len`/`max_len` is not a conflict for bytes; `len` wins.

Go
* An empty `bytes.const` is not enforced (R).  `lt_now: false` is enforced like `true`.
* Host names: `ToLower` maps U+212A (Kelvin) and U+0130 into ASCII, so they are accepted (R).
* An unknown number of `well_known_regex` yields a nil pattern: panic on use.
* Legacy embedded messages (with Validate only) contribute just their first error to ValidateAll.
* `ValidateAll`'s error text does not show the nesting (R).  Errors of map keys never have `Key()` true.
* Accepted schemas whose Go does not compile (R, PropIdent; the exact class is `go_fits`): names that clash (`X` with
  `XValidationError`, tables of message `A_B` field `C` and of message `A` field `B_C`); patterns on both keys and values
  of a map (declared twice); in-lists on items, keys or values other than strings and enums in lists (not declared); a
  uuid rule in nested messages only (`_uuidPattern` not declared); a map loop that does not use its key, as from
  `map.values.message.skip` ("declared and not used"); duplicate list entries in a message with `disabled`, whose rules
  are not checked but whose tables are still printed.
* `map<string, bytes>` with patterns on keys and values compiles, but the values are matched against the keys' pattern
  (R, PropIdent).
* A pattern in a message with `disabled` is not checked, but still compiled when the package is loaded: a bad one panics
  every program that links the package (R, PropExact).  A `duration` or `timestamp` rule on a field of another message type
  compiles if it has no bounds and silences the rules of the embedded message (R, PropExact).
* Output path: `ReplaceAll` removes every occurrence of the module (R); the multi-file Java path ignores it.

Java
* A file with rules that sees validate.proto only through a public import gets no validator, silently (R).  `module` has no effect
  with java_multiple_files (R).
* Unsigned numbers are compared signed; constants above the signed range and second counts above 2^31 do not compile.
* String constants are pasted unescaped.  `pattern` must match the whole string.  `within` includes its ends.
* `message.skip` also drops `required`; `max_items: 0`/`max_pairs: 0` are ignored; `no_sparse` always throws.
* Invalid durations and timestamps end in IllegalArgumentException; overflow in ArithmeticException.
* An ignored message type has no validator: NullPointerException.  With java_multiple_files a top-level one has, so its rules are checked (R).
* With java_multiple_files, a message type whose name begins with a small letter or has one after a digit (`foo`, `Foo1bar`) gets a validator
  class (FooValidator, Foo1BarValidator) that ReflectiveValidatorIndex does not look for: it and all types inside of it pass without
  being checked (R).  classNameMessage also changes names with "Underscore" before an underscore or three times in a row (R).
* A file that does not import validate.proto has no validators, so messages with rules that are embedded in its messages are not checked
  (`unimported_never_found`); Go checks them.
* Generated Java does not compile for a file called `iOS.proto` (class IoS, protoc: IOS) (R); for a file foo.proto with a nested type
  `Foo` (protoc appends "OuterClass") (R); without a package (R); for a top-level type `Foo_bar` with java_multiple_files
  (class Foo_barValidator, `new FooBarValidator()`) (R); with a required oneof `foo_1a` (getFoo1aCase, protoc: getFoo1ACase)
  (R).  A field called `class` is read with getClass(), the method of Object (R).
* The generator fails on rules for the values of wrappers that are items of lists or values of maps (R).  With `const`, `in` or `not_in` for
  enum values of maps, the Java calls Object.forNumber and does not compile (R).  In proto2, fields `fooBar` and `foo_bar` give two
  constants of the same name (R).
* The exception of a required wrapper that is absent does not name it: the template prints the Go value of the field's descriptor (R).
  Exceptions name the innermost field only, not where the embedded message is (R).
* ExplicitValidatorIndex never consults its fallback once built with one; the server interceptor delivers messages
  that arrive after an abort (R).

C++
* Embedded messages are validated through a map that static initialisers fill: a type whose object file is not linked, or not yet
  initialised, passes silently (R; Bazel's rule sets `alwayslink`).  A lookup of a type without validator (ignored, disabled)
  inserts into the map without a lock: a data race between threads (R).
* Literals end at NUL; hexadecimal escapes swallow following digits (R).  `in` for NaN is always true (R).
* Not implemented: e-mail, uri, uri_ref, IP bytes, timestamps, `no_sparse` (R). They throw, and never pass (C49). `rule_comparison.md`
  also lists `items`, `keys`, `values` and `required` of timestamps as missing in C++; they are there, and covered by C42. All other
  cells of the table are right (C57).
* Error texts never begin with `invalid `: `std::ostringstream msg("invalid ")` is not opened at its end, so the next output overwrites it (R).
* Float bounds are compared as doubles and printed with six decimals (R).  Durations of mixed sign are accepted (R).
* Generated C++ does not compile for fields with capital letters (`fooBar`) or called like a keyword of C++ other than const and inline (R); for
  oneof members `_foo` and oneofs `foo_1` (R); without a package, and for packages like `foo_bar`, without a dot, which are cut into
  namespaces at underscores (R); for two nested messages of one name in one file with lists or patterns for fields of one name (R); for in and
  not_in on items other than strings and enums and on keys and values, and patterns on items that are bytes
  (`cc_tables_missing`); for patterns on both the keys and the values of a map (R).  If the values are bytes it compiles, and the values are
  matched against the pattern for keys (R).
* The generator fails on in and not_in for wrappers other than StringValue, and on rules for wrappers in lists and maps (R).

Python
* A zero or empty constant counts as absent: `len: 0`, `max_len: 0`, `max_items: 0`, `enum.const: 0` (R).
* `ignore_empty: false` acts as `true` for numbers (R); `ignore_empty` alone, or empty rules, make *every* message of the type
  fail with an exception that is not ValidationFailed (theorems `py_blank_rules_crash`, `py_ignore_empty_alone_crashes`).
* `{%-` and `-%}` in the templates remove line breaks that the source needs.  A duration with `const`, `in` or `not_in` and an upper bound that is
  alone (or below the lower bound) makes `raise ...)if dur >= lt:` (R); a string with `ignore_empty` as an item, key or value makes
  `for item in p.x:    if item:` (R), and in a oneof a line that is indented too far (R).  These are syntax errors, which strike every message of
  the type, whatever is set (`py_duration_bound_crashes`, `py_inner_ignore_empty_crashes`, `py_oneof_ignore_empty_crashes`).  Found by reading the templates; C64 proves it from
  the templates themselves (`py_duration_lines`, `py_items_lines_refuted`, `py_keys_lines_refuted`, `py_values_lines_refuted`, `py_member_lines`),
  and that no other field of a message type with one field has this defect (`py_field_lines_partial`, `py_oneof_lines_partial`).
* Rules for items that are bytes are not enforced; rules for keys switch the validation of values off; items with
  message rules crash; required items always fail (R).
* `no_sparse` is not looked at.  It need not be: a Python map has no absent messages, and the theorems cover it.
* Durations are floats: 3 ns is not equal to 3 ns (R).  Invalid durations pass (R).
* `$` matches before a final newline (R); backslashes in bytes patterns are doubled (R); UUIDs need no hyphens (R).
* A repeated field of messages with the fields `key` and `value` is taken for a map (R); packages whose name begins with
  `google.protobuf` are not validated (R).
* The cache is keyed by full name: with two descriptor pools that declare a type differently, the first one validated decides
  for both (R).
* Constants are pasted into source that is executed: a schema author can inject code (`py_constants_inject`).  A constant survives exactly if it
  has no double quote, no NUL and no escape sequence; `\n` (a backslash and an n) becomes a line break (R), a line break is a syntax error (R), and
  so is a quote in a string of `in` or `not_in` (R), a pattern with an apostrophe (R) or `\u` (R).  Syntax errors strike every message of the type.
* The text of ValidationFailed tells neither the message type nor where an embedded message is (R).  For an item of a list it says
  "item", for a key "key", and not which field (R).  Python looks at the oneofs first, so that it may name another field than Go (R).

Imports of generated Go files
* A package is imported for an enum only if a singular field has that type.  If the enum is used only in a repeated field or as the value of
  a map (with defined_only, in, not_in or unique), the generated file names a package that it does not import (R).
* Nor is it imported if the Go package has the same name as that of the file (`.../v1` and `.../v1`) (R), or the same proto package in another
  Go package (R): `externalEnums` compares proto packages *and* package names, not import paths.
* Two foreign packages of one name are imported under that name: redeclared (R).  So is a package called like a library package
  that every file imports ("url", "time", "mail") (R); one called "item", "m" or "key" is hidden by a variable (R).

Changes of a schema
* Adding a rule may make Go accept more: `gt: 10` beside `lt: 5` (R), `len` beside `max_len` on bytes (R), `lt_now` beside `within` (R).
* A new member of a required oneof makes all programs with the older schema reject the messages that use it (`new_member_rejected`), and a
  new field with, say, `min_len` or `email` and without `ignore_empty` makes programs with the newer schema reject all messages of older
  ones (`new_field_rejects`).

Harness
* With 5 cases and 4 shards, shard 3 slices out of range (R).  A case that cannot be encoded is reported once, not per harness (R).
* No harness program sets CheckMultipleErrors, so the number of failures that a case expects is never compared (`failure_count_unchecked`).
* The Python program writes `SerializeToString().decode("utf-8")`: with a reason of 128 to 16383 bytes the length is no UTF-8, the program
  fails and the case is counted as a failure although the verdict was right (R).
* The Go program compares the first violation that ValidateAll lists with the one Validate found.  With two invalid entries in a map these may
  differ from run to run (R); with a violation inside a message that is embedded in a message with older code they always do (R).
* The suite itself: case 1168 (MapValues, two invalid entries) fails whenever Go happens to visit the map in two different orders (R).
* The suite is right for the first half hour after its start only: cases 1388 and 1393 are taken at the start (R).
* C++ answers "not implemented" on 38 cases that expect violations.  The executor counts them as successes, not as skipped
  (`suite_cc_unseen`).

## 7. Reading order

`properties.jsonl`, then `Prop*.v` (statements), then the specification files, then the model files.
`MANIFEST.json` maps properties to theorem names.  `seeded/LOG.jsonl` records the wrong programs the theorems were
tested against.
