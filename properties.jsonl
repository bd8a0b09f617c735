{"id": "C01", "title": "Generated Go Validate() accepts exactly the messages that satisfy every declared rule", "statement": "For a schema accepted by the plugin (and inside the rule combinations for which the generated Go compiles), Validate() on a message returns nil if and only if that message, and every embedded message reachable from it through fields that are not marked skip and whose type is neither disabled nor ignored, satisfies all of its own field, oneof and message rules as worded in validate.proto.", "quantifier": "all schemas, all message values of any nesting depth and any size, all regexp/IP/e-mail/URL oracles, all values of now", "why_tests_cant": "message trees and rule sets are unbounded; the test-suite holds a few literals per rule and almost never combines rules or nests messages", "anchors": ["templates/goshared/msg.go:msgTpl", "templates/go/message.go:messageTpl", "templates/goshared/*.go", "templates/shared/context.go", "validate/validate.proto"]}
{"id": "C02", "title": "Validate() and ValidateAll() always give the same verdict", "statement": "For every message, Validate() returns nil exactly when ValidateAll() returns nil, even when the two calls iterate over maps in different orders.", "quantifier": "all schemas, messages, nesting depths and map iteration orders", "why_tests_cant": "Go randomises map iteration and the two calls take different branches of every generated check; tests only run fixed messages", "anchors": ["templates/goshared/msg.go", "templates/go/message.go", "README.md:104-106"]}
{"id": "C03", "title": "Validate() reports the first error that ValidateAll() reports", "statement": "When a message is invalid, the innermost cause of the error returned by Validate() has the same error string as the first leaf obtained by flattening the AllErrors() lists returned by ValidateAll(), provided both iterate maps in the same order.", "quantifier": "all schemas, messages and nesting depths", "why_tests_cant": "the relation is between two traversals of an unbounded tree; the Go harness checks it only for its fixed cases", "anchors": ["templates/goshared/msg.go", "templates/go/message.go", "tests/harness/go/main/harness.go:checkValid,mergeReasons"]}
{"id": "C04", "title": "ValidateAll() is complete: it reports every violated constraint and nothing else", "statement": "The error list of ValidateAll() contains, in field order, exactly one error for every generated check that the message violates, and no error for a constraint that holds; failing one check never hides a later one (except a check nested under a failed well-formedness test).", "quantifier": "all schemas and messages", "why_tests_cant": "needs every subset of simultaneously violated rules, an exponential family", "anchors": ["templates/goshared/*.go", "templates/go/*.go"]}
{"id": "C05", "title": "Numeric range rules accept exactly the documented interval, including reversed intervals", "statement": "For every combination of lt, lte, gt, gte the plugin accepts, the generated Go check passes v iff: with only one bound, v satisfies it; with both bounds and upper > lower, v satisfies both; with upper < lower (reversed), v satisfies at least one. For floats this holds for every non-NaN v; NaN passes every one-sided and every inside/outside range check.", "quantifier": "all bounds and all values of all integer kinds; all IEEE floats including NaN, infinities and signed zeros", "why_tests_cant": "2^64 values times 2^128 bound pairs; tests use one bound pair per shape and never NaN", "anchors": ["templates/goshared/ltgt.go:ltgtTpl", "validate/validate.proto:FloatRules..SFixed64Rules"]}
{"id": "C06", "title": "const, in and not_in mean equality and membership", "statement": "For numeric, bool, string, enum and any-type-URL fields the generated Go check with const accepts exactly the equal value, with in exactly the listed values, with not_in exactly the unlisted ones; for floats equality is IEEE equality (so NaN satisfies no const or in and every not_in). For bytes a non-empty const behaves the same but an empty const is silently not enforced.", "quantifier": "all rule values, all lists of any length, all field values", "why_tests_cant": "unbounded lists and value domains", "anchors": ["templates/goshared/const.go", "templates/goshared/in.go", "templates/goshared/bytes.go:84-90", "templates/goshared/any.go"]}
{"id": "C07", "title": "String length rules count Unicode code points, byte rules count bytes", "statement": "For every valid UTF-8 string that encodes the code points c1..cn, len/min_len/max_len are checked against n, and len_bytes/min_bytes/max_bytes against the number of bytes; equal min and max behave like len. For an arbitrary byte string each maximal-subpart-invalid byte counts as one.", "quantifier": "all code point sequences of any length, all byte strings", "why_tests_cant": "unbounded strings, all of Unicode", "anchors": ["templates/goshared/string.go:13-82", "templates/goshared/bytes.go:10-44"]}
{"id": "C08", "title": "prefix, suffix, contains and not_contains mean exactly that", "statement": "The generated Go check accepts s for prefix p iff s = p ++ t for some t; suffix, contains, not_contains likewise, for strings and for bytes.", "quantifier": "all strings and affixes", "why_tests_cant": "unbounded strings", "anchors": ["templates/goshared/string.go:84-114", "templates/goshared/bytes.go:46-68"]}
{"id": "C09", "title": "The hostname rule accepts exactly RFC-1034 style hostnames (for ASCII input)", "statement": "For ASCII input the generated hostname check accepts s iff |s| <= 253 and s, less one optional trailing dot, is a dot-separated non-empty sequence of labels of 1..63 letters, digits or hyphens that neither begin nor end with a hyphen. For non-ASCII input the check is not safe: characters whose lower-case form is an ASCII letter are accepted.", "quantifier": "all byte strings", "why_tests_cant": "unbounded strings; the accepting set is infinite", "anchors": ["templates/goshared/known.go:hostTpl"]}
{"id": "C10", "title": "The uuid rule accepts exactly the 8-4-4-4-12 hexadecimal form", "statement": "The generated Go uuid check and the Java runtime's uuid check accept the same strings: 36 ASCII characters, hyphens at positions 8, 13, 18 and 23 and hexadecimal digits elsewhere.", "quantifier": "all strings", "why_tests_cant": "infinite input set, two independent implementations", "anchors": ["templates/go/file.go:48", "templates/goshared/known.go:uuidTpl", "java/pgv-java-stub/src/main/java/io/envoyproxy/pgv/StringValidation.java:uuid"]}
{"id": "C11", "title": "well_known_regex header rules accept exactly the documented header grammar", "statement": "The pattern installed for HTTP_HEADER_VALUE (strict) accepts exactly strings without control characters other than tab and without DEL; the non-strict pattern accepts exactly strings without NUL, LF and CR; the pattern for HTTP_HEADER_NAME accepts an optional leading colon followed by one or more token characters -- but, because of a stray range in the character class, also the comma, which RFC 7230 forbids.", "quantifier": "all strings of code points", "why_tests_cant": "infinite input set; the deviation sits in a character no test uses", "anchors": ["module/checker.go:16-27,468-479"]}
{"id": "C12", "title": "ignore_empty exempts exactly the empty value", "statement": "With ignore_empty a zero number, empty string, empty bytes, empty list or empty map is always accepted, and any other value gets the same verdict and the same errors as with ignore_empty removed.", "quantifier": "all rule sets and values", "why_tests_cant": "quantifies over all other rules on the field", "anchors": ["templates/goshared/num.go", "templates/goshared/string.go", "templates/goshared/bytes.go", "templates/goshared/repeated.go", "templates/goshared/map.go"]}
{"id": "C13", "title": "Bytes ip/ipv4/ipv6 rules accept exactly the right address encodings", "statement": "bytes.ip accepts exactly the values of length 4 or 16, bytes.ipv4 exactly length 4 or 16-byte IPv4-mapped values, bytes.ipv6 exactly the 16-byte values that are not IPv4-mapped.", "quantifier": "all byte strings", "why_tests_cant": "infinite input set; mapped addresses are untested", "anchors": ["templates/goshared/bytes.go:92-110"]}
{"id": "C14", "title": "Enum rules: defined_only accepts exactly declared numbers", "statement": "With defined_only the generated Go check accepts a number iff some value of the enum (aliases included) has that number; const/in/not_in are by number.", "quantifier": "all enums, all 32-bit numbers", "why_tests_cant": "unbounded enum declarations", "anchors": ["templates/goshared/enum.go", "module/checker.go:CheckEnum"]}
{"id": "C15", "title": "Message fields: nil, required, skip, disabled and ignored behave as documented", "statement": "An unset message field is accepted unless required; a set one is validated recursively unless skip; Validate on a nil message or on a message of a disabled type returns nil whatever its content; a field whose type is ignored (no Validate method) is never recursed into.", "quantifier": "all schemas (including mutually recursive message types) and message trees", "why_tests_cant": "recursion depth is unbounded", "anchors": ["templates/go/message.go", "templates/go/required.go", "templates/goshared/msg.go:24-28", "templates/shared/disabled.go"]}
{"id": "C16", "title": "Repeated rules: item count, uniqueness and per-item rules", "statement": "A repeated field is accepted iff its length is within min_items/max_items, no two items are equal when unique is set, and every item satisfies the items rules; ValidateAll reports an error for each failing item, and a duplicate error for exactly the items equal to an earlier one, with the item's index in the field name.", "quantifier": "all lists of any length", "why_tests_cant": "unbounded lists, all positions", "anchors": ["templates/goshared/repeated.go", "templates/shared/context.go:Elem"]}
{"id": "C17", "title": "Map rules: pair count, sparseness, key and value rules, independent of iteration order", "statement": "A map field is accepted iff its size is within min_pairs/max_pairs, every key satisfies keys, every value satisfies values, and no value is nil when no_sparse is set; the verdict, and the multiset of errors from ValidateAll, do not depend on map iteration order.", "quantifier": "all maps and all iteration orders", "why_tests_cant": "iteration order is random at run time; sizes are unbounded", "anchors": ["templates/goshared/map.go", "templates/shared/context.go:Key,Elem"]}
{"id": "C18", "title": "Oneofs: only the populated member is validated, required means some member is set", "statement": "For each oneof, the rules of the populated member alone decide; an unpopulated oneof is accepted iff it is not required.", "quantifier": "all oneofs with any number of members", "why_tests_cant": "combinatorial in members", "anchors": ["templates/goshared/msg.go:36-52"]}
{"id": "C19", "title": "Wrapper fields are validated like the wrapped scalar when present and skipped when absent", "statement": "For a google.protobuf.*Value field with scalar rules, nil is accepted unless message.required is set; a non-nil wrapper has the verdict and error reasons that the same rules give on a plain scalar field with the wrapped value.", "quantifier": "all rule sets and wrapped values", "why_tests_cant": "quantifies over all rules", "anchors": ["templates/goshared/wrapper.go", "templates/shared/context.go:Unwrap", "templates/goshared/register.go:unwrap"]}
{"id": "C20", "title": "Any rules compare the type URL", "statement": "An Any field is accepted iff it is set when required and, when set, its type_url is in in / not in not_in.", "quantifier": "all Any values", "why_tests_cant": "infinite domain", "anchors": ["templates/goshared/any.go"]}
{"id": "C21", "title": "Duration rules compare exact durations within +-292 years", "statement": "For every valid Duration message whose nanosecond count fits an int64, the generated Go comparison against valid in-range rule durations equals comparison of the exact seconds/nanos values, for const, lt/lte/gt/gte (inside and reversed), in and not_in; invalid durations are rejected whenever such a rule is present. Outside that range values saturate, and distinct out-of-range durations become indistinguishable.", "quantifier": "all durations, all bounds", "why_tests_cant": "2^64+ values; overflow sits at unvisited extremes", "anchors": ["templates/go/duration.go", "templates/goshared/duration.go", "templates/goshared/register.go:durLit,durGt", "module/checker.go:checkDur"]}
{"id": "C22", "title": "Timestamp comparisons are exact over the whole Timestamp range despite saturating subtraction", "statement": "For every valid Timestamp, the generated Go comparison of ts against absolute bounds through Time.Sub (which saturates at +-292 years) has the sign of the exact difference, so const/lt/lte/gt/gte (inside and reversed) decide exactly the documented relation.", "quantifier": "all valid timestamps in years 1..9999 and all bounds", "why_tests_cant": "saturation cases need differences above 292 years, untested", "anchors": ["templates/goshared/timestamp.go", "templates/go/timestamp.go", "templates/goshared/register.go:tsLit,tsGt"]}
{"id": "C23", "title": "lt_now, gt_now and within accept exactly the documented window around now", "statement": "For every now and ts: lt_now accepts iff ts < now, gt_now iff ts > now, within d iff |ts-now| < d, lt_now+within iff now-d <= ts < now, gt_now+within iff now < ts <= now+d. The presence of the field, not its value, enables the rule: lt_now:false is enforced like lt_now:true.", "quantifier": "all now, ts, d", "why_tests_cant": "depends on the wall clock; boundary equality cannot be hit by a test", "anchors": ["templates/goshared/timestamp.go:103-137", "validate/validate.proto:TimestampRules"]}
{"id": "C24", "title": "The plugin rejects exactly the documented rule conflicts", "statement": "Code generation proceeds iff none of the enumerated conflicts is present: const mixed with other numeric rules, in with not_in, in with a range, lt with lte, gt with gte, equal opposite bounds, min > max, len with min/max, prefix/suffix/contains longer than the maximum, max_len > max_bytes, pattern with in, pattern with well_known_regex, unparsable pattern, in outside a defined_only enum, now-rules mixed with absolute rules or each other, non-positive within, invalid duration/timestamp constants.", "quantifier": "all rule messages (subject to maxima below 2^63 and timestamps within int64 nanoseconds)", "why_tests_cant": "the rule space is infinite and combinatorial", "anchors": ["module/checker.go"]}
{"id": "C25", "title": "Rules are only accepted on fields of the matching type", "statement": "If the plugin accepts a scalar, string, bytes, bool, enum, repeated, map or message rule on a field then the field has that type (or, for scalars, is the matching wrapper), also for items, keys and values. Any, duration and timestamp rules, however, are accepted on a field of any type.", "quantifier": "all field types and rules, nested to any depth", "why_tests_cant": "cross product of types and rules", "anchors": ["module/checker.go:MustType,CheckFieldRules,CheckRepeated,CheckMap,CheckAny,CheckDuration,CheckTimestamp"]}
{"id": "C26", "title": "Accepted rules do not contradict each other", "statement": "README: the plugin ensures that the rules applied to a field cannot contradict before code generation. Claimed property: every rule set the plugin accepts is satisfied by some value of the field's type. It is false as stated; the exact class of numeric rule sets that stay satisfiable is characterised.", "quantifier": "all accepted rule sets", "why_tests_cant": "existence of a satisfying value over infinite domains", "anchors": ["README.md:225", "module/checker.go"]}
{"id": "C27", "title": "Generated Go code only refers to declared identifiers, each declared once", "statement": "For a schema accepted by the plugin, each lookup table, pattern variable and helper method that the generated Go file refers to is declared exactly once and every declared local is used, so the file compiles. False in general; holds for a precisely delimited class of rules.", "quantifier": "all accepted schemas", "why_tests_cant": "needs every combination of rule position (field, item, key, value, wrapper) and rule kind", "anchors": ["templates/goshared/msg.go:135-208", "templates/goshared/register.go:lookup,inType,inKey", "templates/shared/well_known.go"]}
{"id": "C28", "title": "Errors identify the offending field, element and reason", "statement": "Every error returned by Validate/ValidateAll carries the Go name of the field that is violated, followed by [index] for a repeated item or map entry, a reason taken from the violated rule, and for embedded messages a cause that is the embedded message's own error; the text of Error() determines field, element and reason at each level of a Validate error when the texts contain no separators; the text of a ValidateAll error does not show the nesting. Errors for map keys never set Key().", "quantifier": "all messages", "why_tests_cant": "all error positions", "anchors": ["templates/goshared/register.go:errIdxCause", "templates/goshared/msg.go:67-133", "templates/shared/context.go"]}
{"id": "C29", "title": "Literals survive code generation", "statement": "A string, byte-slice or integer rule value is written in the generated Go, C++ and Java code as a literal that denotes the same value. Go strings, byte slices and integers: always. Go map keys for bytes: exactly when every byte is at least 0x10 (otherwise the code does not compile). C++ strings: unless a control character written in hexadecimal is followed by a hexadecimal digit; C++ bytes: unless they contain a NUL. Java bytes: always; Java strings: exactly when there is no quote, backslash or line end; Java patterns: for shared escapes, without quotes and hexadecimal escapes; Java integers: exactly when they fit the signed type.", "quantifier": "all byte strings, all Unicode strings, all integers", "why_tests_cant": "infinite", "anchors": ["templates/goshared/register.go:lit,byteStr,inKey", "templates/cc/register.go:lit,byteStr", "templates/java/register.go:javaStringEscape,byteArrayLit,javaTypeLiteralSuffixFor", "templates/java/string.go", "templates/java/num.go"]}
{"id": "C30", "title": "Generated files land at the documented path", "statement": "With the module parameter set, each generated file's path is the proto's Go output path with the module prefix and leading slashes removed. Holds when the module string occurs only as prefix; otherwise interior occurrences are deleted too.", "quantifier": "all module parameters and paths", "why_tests_cant": "infinite strings", "anchors": ["module/validate.go:Execute"]}
{"id": "C31", "title": "Java numeric range checks agree with Go for signed types", "statement": "For every accepted range rule and every signed integer or finite float the Java runtime's range check rejects exactly when the Go check rejects; for unsigned kinds they differ once a value or bound has its top bit set.", "quantifier": "all bounds, all values", "why_tests_cant": "2^192 combinations", "anchors": ["java/pgv-java-stub/src/main/java/io/envoyproxy/pgv/ComparativeValidation.java", "templates/java/num.go"]}
{"id": "C32", "title": "The Java gRPC server interceptor never delivers an invalid message", "statement": "For every sequence of inbound events, the handler receives only messages that passed validation, in order, and never receives half-close once a message was rejected; the first rejection closes the call with INVALID_ARGUMENT. It does not hold that the call is closed once only, or that later messages are withheld: both are refuted.", "quantifier": "all event histories", "why_tests_cant": "unbounded histories and streaming interleavings", "anchors": ["java/pgv-java-grpc/src/main/java/io/envoyproxy/pgv/grpc/ValidatingServerInterceptor.java"]}
{"id": "C33", "title": "The Java gRPC client interceptor never sends an invalid message", "statement": "For every sequence of outbound messages only valid ones reach the channel; sending an invalid one raises INVALID_ARGUMENT to the caller and forwards nothing.", "quantifier": "all call histories", "why_tests_cant": "unbounded histories", "anchors": ["java/pgv-java-grpc/src/main/java/io/envoyproxy/pgv/grpc/ValidatingClientInterceptor.java"]}
{"id": "C34", "title": "Java validator indexes: caching never changes a verdict, and fallbacks are consulted", "statement": "For every chain of indexes and every history of validatorFor lookups, validations and registrations each validator obtained decides what an uncached lookup would decide at that moment. A class for which reflection finds no validator is validated by the fallback. The documented fallback of the explicit index is not consulted: an unregistered class always passes (refuted).", "quantifier": "all lookup histories, all fallback indexes", "why_tests_cant": "histories are unbounded; the unit test uses an always-valid fallback and cannot tell whether its verdict is used", "anchors": ["java/pgv-java-stub/src/main/java/io/envoyproxy/pgv/ReflectiveValidatorIndex.java", "java/pgv-java-stub/src/main/java/io/envoyproxy/pgv/ExplicitValidatorIndex.java"]}
{"id": "C35", "title": "Java checks of strings, bytes, enums, times, lists and maps implement their rules", "statement": "On rules whose constants Java can express and values without a representation difference (no ill-formed UTF-8, no invalid durations, no undefined enum constants in rules), the Java checks throw ValidationException exactly when the corresponding rule of validate.proto is violated, and nothing else. Outside that fragment deviations are exhibited: max_items/max_pairs 0, no_sparse, len beside min_len, IPv4-mapped bytes, undefined enum numbers, skip beside required, the end points of within, and times that do not fit.", "quantifier": "all rules and values in the fragment; one witness per deviation", "why_tests_cant": "infinite domains", "anchors": ["java/pgv-java-stub/src/main/java/io/envoyproxy/pgv/*.java"]}
{"id": "C36", "title": "Python scalar and string validators agree with Go", "statement": "For numeric, string-length, affix, membership and hostname rules the code produced by the Python validator accepts exactly the values the Go code accepts, when every numeric rule parameter used as a truth value is non-zero and ignore_empty is not explicitly false; deviations are exhibited otherwise.", "quantifier": "all rules and values in the fragment", "why_tests_cant": "two independent implementations over infinite domains", "anchors": ["python/protoc_gen_validate/validator.py"]}
{"id": "C37", "title": "C++ string helpers and field checks agree with Go", "statement": "In C++, IsPrefix, IsSuffix and Contains are exact on all bytes, Utf8Len is the number of characters of valid UTF-8, IsHostname accepts what Go accepts on ASCII input and RFC 1034 names on all input; and the generated checks for numbers, bools, strings, bytes, enums, Any, durations, counts and uniqueness accept exactly the values the rule allows, on the fragment of rules that C++ can express. Timestamps, email, uri, no_sparse and bytes.ip always throw.", "quantifier": "all strings, numbers, durations and lists; all checked rules in the fragment", "why_tests_cant": "infinite domains", "anchors": ["validate/validate.h", "templates/cc/*.go"]}
{"id": "C38", "title": "The conformance harness accounts for every (case, harness) pair under every schedule", "statement": "For every number of workers, every list of cases, every list of harnesses and every interleaving of the goroutines, the run terminates without deadlock or send on a closed channel and successes + failures + skips equals cases times harnesses, each result being counted once.", "quantifier": "all worker counts, case lists, schedules", "why_tests_cant": "interleavings are exponential and the scheduler is not controllable from a test", "anchors": ["tests/harness/executor/executor.go:run", "tests/harness/executor/worker.go"]}
{"id": "C39", "title": "Harness sharding runs every test case exactly once", "statement": "Over all shard indexes 0..k-1 the shards are disjoint, in order, and their concatenation is the full list of test cases, and no shard computation panics.", "quantifier": "all list lengths and shard counts", "why_tests_cant": "arithmetic over all sizes", "anchors": ["tests/harness/executor/executor.go:shardTestCases"]}
{"id": "C40", "title": "The four implementations give one verdict on a common rule fragment", "statement": "For a common fragment of rules (signed integers with const/in/not_in/ranges, strings with lengths and affixes, bool, enum) Go, Java, Python and C++ validators accept the same values.", "quantifier": "all rules in the fragment, all values", "why_tests_cant": "four implementations, infinite domains", "anchors": ["templates/go", "templates/java", "templates/cc", "python/protoc_gen_validate/validator.py"]}
{"id": "C41", "title": "The generated Java validator accepts exactly the valid messages, as Go does", "statement": "For every accepted schema in the Java fragment and every message whose values are in it, at any depth of nesting, the validator found through the reflective index passes if the message is valid, throws ValidationException if not, and never ends in any other exception; its verdict is that of the generated Go code.", "quantifier": "all schemas and messages in the fragment, all library behaviours that agree with Go's on the values at hand", "why_tests_cant": "The claim is about all schemas, rules and nested messages; the conformance suite has a fixed list of cases and never shows where the implementations part.", "anchors": ["templates/java/*.go", "java/pgv-java-stub/src/main/java/io/envoyproxy/pgv/*.java"]}
{"id": "C42", "title": "C++ validation of whole messages agrees with Go", "statement": "For every schema accepted by the plugin whose rules the C++ templates support, the generated C++ Validate returns true on exactly the messages that satisfy all their rules, at any depth of nesting, and returns false without throwing on all others; so it gives the same verdict as the Go Validate.", "quantifier": "all accepted schemas in the supported fragment, all well-typed messages, all nesting depths, all behaviours of RE2/inet_pton/Go regexp that agree on the strings at hand", "why_tests_cant": "unbounded schemas and messages; agreement of two code generators", "anchors": ["templates/cc/file.go", "templates/cc/msg.go", "templates/cc/register.go", "validate/validate.h"]}
{"id": "C43", "title": "Python validation of whole messages is exact and agrees with Go", "statement": "In Python, validate(message) returns exactly for the messages that satisfy all their rules, including those of nested messages, lists, maps and oneofs, and raises ValidationFailed and no other exception for the others, for every schema and value in the stated fragment; its verdict is Go's. For a message type with a field whose rules are empty, or consist only of ignore_empty, validate raises some other exception for every message; so it does for a duration with const, in or not_in and only an upper bound, and for a string with ignore_empty in a list, a map or a oneof.", "quantifier": "all schemas the plugin accepts, all messages of any nesting depth, with constants and values in the fragment; all behaviours of the libraries", "why_tests_cant": "the validator is source text generated at run time from the schema, so schemas, values and nesting are unbounded", "anchors": ["python/protoc_gen_validate/validator.py: validate, _validate_inner, file_template, rule_type"]}
{"id": "C44", "title": "Loading a generated Go package does not panic", "statement": "Every regular expression that the generated package compiles with MustCompile in its variable initialisers was compiled successfully by the plugin before it wrote the file, whether it is on a field, on list items, on map keys or values, or comes from a well-known-regex rule; a bad pattern is a plugin error, not a crash of every program that links the package.", "quantifier": "all schemas the plugin accepts, all regular expression engines", "why_tests_cant": "The set of positions and ways in which a pattern reaches an initialiser is a product of rule kinds and field shapes; tests cover some.", "anchors": ["module/checker.go:checkPattern", "module/checker.go:checkWellKnownRegex", "module/checker.go:CheckRules", "templates/goshared/msg.go:msgTpl"]}
{"id": "C45", "title": "Generated Go that compiles gives exact verdicts", "statement": "If the generated package compiles, and rules for Any, Duration and Timestamp are put on fields of these types, lengths of byte strings fit an int and byte-string map values have no pattern, then Validate and ValidateAll accept exactly the messages that satisfy their rules and report an error for all others, without a panic.", "quantifier": "all schemas the plugin accepts, all messages, all behaviours of regexp, net/mail, net/url and net", "why_tests_cant": "It relates a judgement of the Go compiler to the meaning of the code for all schemas; a test fixes one schema.", "anchors": ["templates/goshared/msg.go:msgTpl", "templates/goshared/register.go", "module/checker.go:CheckRules", "module/validate.go:Execute"]}
{"id": "C46", "title": "Caching generated Python validators never changes a verdict", "statement": "In Python, whatever messages were validated before or are validated at the same time, in any order and from any descriptor pools, and whatever the cache has evicted, validate(message) gives the verdict of a validator generated afresh for that message, provided message types with the same full name are declared alike; the cache never holds more than 128 validators.", "quantifier": "all histories of calls, all interleavings of lookups, all messages, all sets of descriptor pools", "why_tests_cant": "Verdicts depend on the state of a process-wide cache, whose states are as many as the histories of calls.", "anchors": ["python/protoc_gen_validate/validator.py:ValidatingMessage", "python/protoc_gen_validate/validator.py:validate", "python/protoc_gen_validate/validator.py:_validate_inner"]}
{"id": "C47", "title": "A run of the plugin writes all the promised files or none", "statement": "A run of protoc-gen-validate fails, writing nothing, exactly when the lang parameter is missing or unknown or the rules of some message (top-level or nested) of some target are rejected. Otherwise it writes exactly the promised files, from the checked rules: one .validate.go per target for Go, a header and a source for C++, and for Java one validator per target that imports validate.proto, or one per top-level message with java_multiple_files. Neither the outcome nor the set of files depends on the order in which the targets are visited. Refuted for Java: a target with rules that sees validate.proto through a public import gets no file, and the module parameter is ignored with java_multiple_files.", "quantifier": "all lang and module parameters, all sets of target files in any order, all path and naming functions of the library", "why_tests_cant": "unbounded sets of files, and the order of a Go map is random", "anchors": ["module/validate.go:Execute", "templates/pkg.go:Template,FilePathFor", "templates/java/register.go:JavaFilePath,JavaMultiFilePath,importsPvg", "templates/cc/register.go:CcFilePath"]}
{"id": "C48", "title": "C++ validators find the validators of embedded messages, whatever the order of initialisation", "statement": "In C++, once the static initialisers of all generated files have run, in any order and interleaved with validations, Validate(m) gives the verdict that the rules of m and of all messages embedded in it prescribe, whatever types other threads look up. Before that, exactly the types whose initialisers have not run are treated as having no rules (so a type that is not linked in is silently accepted). A lookup changes the shared map only if the type has no entry yet; ignored and disabled types have none until first looked up, so first validations in several threads race.", "quantifier": "all schemas and messages, all interleavings of static initialisation and lookups", "why_tests_cant": "depends on link order, dlopen and thread schedules", "anchors": ["validate/validate.h:BaseValidator,Validator,CheckMessage", "templates/cc/file.go:moduleFileTpl", "templates/cc/message.go:messageTpl", "bazel/pgv_proto_library.bzl"]}
{"id": "C49", "title": "A rule that C++ or Java does not implement is never silently accepted", "statement": "Where the schema has rules that the C++ code does not implement (string email, uri and uri_ref; bytes ip, ipv4 and ipv6; timestamp comparisons; no_sparse of maps), Validate still returns true only for messages that satisfy all their rules, those included, and false only for messages that violate one; otherwise it throws UnimplementedException. If it returns true, no value anywhere in the message, embedded messages included, was under such a rule (absent wrappers and ignored empty values are not). Java does the same for no_sparse, the only rule it does not implement.", "quantifier": "all schemas whose other rules C++ (Java) can express, all messages", "why_tests_cant": "combinations of implemented and unimplemented rules, in any order and at any depth", "anchors": ["templates/cc/string.go:strTpl", "templates/cc/bytes.go:bytesTpl", "templates/cc/timestamp.go:timestampTpl", "templates/cc/map.go:mapTpl", "templates/java/map.go:mapTpl", "validate/validate.h:UnimplementedException", "java/pgv-java-stub/src/main/java/io/envoyproxy/pgv/MapValidation.java:noSparse", "rule_comparison.md"]}
{"id": "C50", "title": "The error of a failing validation names the offending field", "statement": "In Go (Validate), C++, Java and Python, validating an invalid message fails with an error that names a violated rule's field. In Go and C++, the error names the first violated field of the message (fields in declaration order, those of oneofs last) and, if what is wrong is an embedded message, its cause names the first violated field in that message, and so on down to a field whose own rule is violated, or a required oneof that is not set. Both languages name the same field. Java names the last of these fields with its message type only, not where the embedded message is; and for a required wrapper that is absent what it names is not the field's name. The text of a C++ error determines the message type and the field, but it does not begin with `invalid `, which the code tries to put there. Python looks at the oneofs before the other fields, so it may name another field than Go; its text names the last of the fields only, without its message type, and says just `item` or `key` if the rule is one for the items of a list or the keys of a map. If the text does name a field, then it is the one whose rule is violated; and the texts of different fields differ, but for fields that are themselves called item or key.", "quantifier": "all schemas in the fragment of each language, all messages", "why_tests_cant": "which of many violations is named depends on the combination of rules, the order of fields and the depth of nesting", "anchors": ["templates/cc/register.go:errIdxCause", "templates/cc/message.go:messageTpl", "templates/java/msg.go:msgTpl", "templates/java/register.go:fieldName", "templates/java/wrapper.go:wrapperTpl", "templates/go/message.go:messageTpl", "java/pgv-java-stub/src/main/java/io/envoyproxy/pgv/ValidationException.java", "python/protoc_gen_validate/validator.py:rule_type,file_template"]}
{"id": "C51", "title": "What a green run of the conformance suite certifies", "statement": "The conformance programs in Go, C++, Java and Python read a case, validate its message and answer. If such a program answers, it says whether the message is valid, and it never asks for the case to be skipped (unless its type is ignored) nor for the number of failures to be compared. If a run of the executor over any list of cases and harnesses ends without failures, then every expectation (no failure or some) agrees with the rules, and nothing was skipped. Conversely, if all expectations are right, a run reports only successes, provided: processes answer, Go visits maps in the same order twice and has no embedded messages with code older than ValidateAll, texts are UTF-8, and those of Python shorter than 128 bytes. Without these provisos right expectations are reported as failures: the Python program loses the answer if the text of the exception has 128 to 16383 bytes; the Go program reports an error of its own if two entries of a map are invalid and the two methods visit them in different orders, or if a violation lies inside a message embedded in a message with older code. The number of failures a case expects is never compared, only whether it is 0. A program answers that the message is valid only if its validator passed; never if it crashed.", "quantifier": "all schemas and messages in the fragment of each language, all lists of cases and harnesses, all schedules of the executor, all orders of map entries, all texts", "why_tests_cant": "the tests are the subject: a green run is only evidence if the programs and the executor cannot hide a wrong verdict, under any schedule", "anchors": ["tests/harness/go/main/harness.go:main", "tests/harness/go/main/harness.go:checkValid", "tests/harness/go/main/harness.go:mergeReasons", "tests/harness/cc/harness.cc:ProtocGenValidateTestHarness", "java/pgv-java-validation/src/main/java/io/envoyproxy/pgv/validation/JavaHarness.java:main", "tests/harness/python/harness.py", "tests/harness/executor/worker.go:execTestCase", "tests/harness/executor/executor.go:run"]}
{"id": "C52", "title": "The conformance suite is right, and the generated code passes it", "statement": "The files of the conformance suite are accepted by the plugin. For every case whose type has a Validate method, whenever the case is validated less than half an hour after the suite was started, the expectation (no failures, or some) agrees with the declared rules, and ValidateAll reports exactly as many violations as the case expects. In Go every case of the suite is counted as a success, provided both methods visit maps in the same order. Java gives the expected verdict on every case but those of MapNoSparse, which it reports as not implemented; C++ on every case but those of 22 types, of which it reports some as not implemented; Python on every case that does not read the clock. Exceptions: half an hour after the start an expectation is wrong; the case with two invalid map entries fails if Go visits the map in two different orders; and the 38 cases on which C++ answers 'not implemented' although violations are expected are counted as successes, not as skipped.", "quantifier": "all 1015 cases, all starting times of the suite, all instants at which a case is validated, all orders of map entries, all texts of errors", "why_tests_cant": "a test run shows one instant and one order of maps; whether expectations are right for every starting time, and whether a green result depends on luck, it cannot show", "anchors": ["tests/harness/executor/cases.go:TestCases", "tests/harness/cases", "tests/harness/executor/worker.go:execTestCase", "tests/harness/go/main/harness.go:checkValid", "templates/goshared/map.go:mapTpl"]}
{"id": "C53", "title": "Generated Go files import the packages of the enum types they name", "statement": "A generated Go file imports no package without using it. If every enum type that a rule of the file needs (defined_only; in and not_in except on map values; unique on lists) is in the file's own Go package, or in a package from which a singular field of the file takes an enum while neither its proto package nor its Go name is the file's own, and the names of these packages are different from one another, from the packages every file imports and from the variables of the generated code, then all types are found and no name is declared twice. A file whose enums are all of its own package imports nothing more and is right. These conditions, except that about variables, are also necessary: otherwise the file does not compile. Exceptions that follow: an enum of another package used only in lists or maps, a package with the same Go name or the same proto package as the file, two foreign packages of one name, and packages called like an imported library or a variable.", "quantifier": "all schemas that the plugin accepts, all files of them, all assignments of enums to Go packages, import paths and proto packages", "why_tests_cant": "the tests compile the files of one repository with one layout of packages; whether the imports suffice for every layout they cannot show", "anchors": ["templates/go/file.go:fileTpl", "templates/goshared/register.go:externalEnums", "templates/goshared/register.go:enumPackages", "templates/goshared/register.go:inType", "templates/goshared/enum.go:enumTpl", "templates/goshared/repeated.go:repTpl"]}
{"id": "C54", "title": "Rules that are added or made stronger never make a message valid", "statement": "Let every rule in the schema of a program also be in the schema of another program, there as strong or stronger (larger minimum, smaller maximum, narrower range, fewer admitted and more excluded values, more flags), or be about a field that the other schema does not have and whose default it admits. Then the program accepts each message of the other that the other accepts, as the program sees it: with the fields it does not know dropped, with the defaults for those the other does not know, and with oneofs unset whose member it does not know; all this at any depth. In particular, a message that the stronger schema accepts is accepted with the weaker one. Exceptions, where an added rule makes Go accept more: gt or gte above lt or lte on the same field (one of the two is enough then), len beside min_len or max_len on bytes (they are ignored then), lt_now or gt_now beside within (the ends become part of the interval). The two programs may be written in any of the four languages, as far as each is exact for its schema and messages (C41, C42, C43).", "quantifier": "all pairs of schemas that the plugin accepts and that are related in this way, all messages, Validate and ValidateAll on each side, Go, Java, C++ and Python on each side", "why_tests_cant": "tests exercise single schemas; that no pair of rule sets and no message contradicts monotonicity is a statement about all of them", "anchors": ["templates/go/message.go:messageTpl", "templates/goshared/msg.go:msgTpl", "module/checker.go:CheckRules", "validate/validate.proto:FieldRules", "templates/goshared/num.go:numTpl", "templates/goshared/bytes.go:bytesTpl", "templates/goshared/timestamp.go:timestampcmpTpl"]}
{"id": "C55", "title": "New fields keep the verdicts exactly if their defaults obey their rules", "statement": "If fields, members of oneofs that are not required, or oneofs that are not required are added to message types and the rules of the new fields admit the defaults, then programs with the old and programs with the new schema give the same verdict on messages without the new fields, in both directions. If the rules of a new field do not admit its default, the new program rejects each message of an old one. A message, wrapper, Any, Duration or Timestamp field admits its default if and only if it is not required; a list or map if and only if it has no positive minimum or ignores empty ones; numbers, strings and bytes do with ignore_empty. A program rejects each message in which a required oneof has a member that the program does not know. The two programs may be written in any of the four languages, as far as each is exact for its schema and messages (C41, C42, C43).", "quantifier": "all pairs of schemas that the plugin accepts and that are related in this way, all messages, Validate and ValidateAll on each side, Go, Java, C++ and Python on each side", "why_tests_cant": "compatibility is a relation between two versions of a schema and all their messages; the test suite has one version", "anchors": ["templates/go/message.go:messageTpl", "templates/goshared/msg.go:msgTpl", "module/checker.go:CheckRules", "validate/validate.proto:FieldRules", "templates/go/message.go:messageTpl", "templates/go/required.go:requiredTpl"]}
{"id": "C56", "title": "The order of declarations does not change a verdict", "statement": "If two schemas differ only in the order in which fields, oneofs and members of oneofs are declared, then a message is accepted with one if and only if it is accepted with the other, by Validate and by ValidateAll. The two programs may be written in any of the four languages, as far as each is exact for its schema and messages (C41, C42, C43).", "quantifier": "all pairs of schemas that the plugin accepts and that differ in the order of declarations only, all messages, Go, Java, C++ and Python on each side", "why_tests_cant": "the number of orders and messages is unbounded; the first violation found does depend on the order, so it takes a proof that the verdict does not", "anchors": ["templates/go/message.go:messageTpl", "templates/goshared/msg.go:msgTpl", "module/checker.go:CheckRules", "validate/validate.proto:FieldRules"]}
{"id": "C57", "title": "The table of implemented rules is right, except for four cells about C++", "statement": "rule_comparison.md lists for each language which rules it implements. For Go, Java and Python the table is right: a rule is ticked if and only if it can make a difference to the verdict of a program in that language, that is, if there are message types with the rule and a message that is accepted with the rule and rejected without it, or the other way round. For C++ the same holds except for items, keys, values and required of timestamps, which are listed as missing and are implemented. Where a rule is not implemented, no program and no message exist for which it makes that difference: C++ and Java either throw the exception for unimplemented rules or go on as if the rule was not there; Python goes on as if it was not there, and crashes when there is no other rule in that place.", "quantifier": "all rows and the columns C++, Go, Java and Python of the table; for cells that are not ticked all libraries, schemas and messages", "why_tests_cant": "that a rule is not implemented means that no schema and no message exist for which it makes a difference; the tests of one language only skip these cases", "anchors": ["rule_comparison.md", "templates/cc/register.go:Register", "templates/java/register.go:Register", "python/protoc_gen_validate/validator.py:map_template", "templates/cc/register.go:failUnimplemented"]}
{"id": "C58", "title": "Java finds the generated validators, except for some names with java_multiple_files", "statement": "If the classes that the Java plugin generates for a file compile, ReflectiveValidatorIndex finds for each message type that is not ignored the validator generated for exactly that type, at any depth. Without java_multiple_files there is no exception; where the plugin's idea of the outer class differs from protoc's (an oddly cased file name, or only a nested type of that name) the classes do not compile. With java_multiple_files it holds for top-level types whose names do not begin with a small letter and have none after a digit, and for all types inside; for other top-level types no class is found and the fallback, by default one that accepts everything, is used, without any warning. Ignored types have no validator, except that with java_multiple_files an ignored top-level type has one. In a file that does not import validate.proto nothing is found.", "quantifier": "all files with any package, options, dependencies and message types nested to any depth, and all message types in them; all Go names that pgsgo could give", "why_tests_cant": "the name goes through six string transformations of two programs that have to agree on every identifier; the conformance suite has a handful of conventional names", "anchors": ["templates/java/register.go:classNameFile", "templates/java/register.go:classNameMessage", "templates/java/register.go:sanitizeClassName", "templates/java/register.go:qualifiedName", "templates/java/file.go", "java/pgv-java-stub/src/main/java/io/envoyproxy/pgv/ReflectiveValidatorIndex.java:reflectiveValidatorFor"]}
{"id": "C59", "title": "Generated Java reads fields with the methods that protoc makes", "statement": "For every field name (that protoc does not rename) the getter and the has-method in generated Java are those that protoc generates, for single, repeated and map fields. For oneofs this holds unless the name has a small letter directly after a digit; then the generated Java does not compile.", "quantifier": "all identifiers as names of fields and oneofs", "why_tests_cant": "two implementations of camel-casing, with regular expressions and special cases for digits, must agree on every identifier", "anchors": ["templates/java/register.go:fieldAccessor", "templates/java/register.go:hasAccessor", "templates/java/register.go:camelCase", "templates/java/oneof.go:oneOfTpl"]}
{"id": "C60", "title": "The constants in generated Java are declared once, with the value and type that the checks need", "statement": "For every message type with rules of the right types and field names that proto3 allows, the constants that a generated Java validator declares have distinct names, which are identifiers; each constant that its code refers to is declared, holds the value of the rule it is used for, and has the type of the values it is compared with. Exceptions: const, in and not_in for the enum values of a map (does not compile), and rules for wrappers in lists or maps, for which, and for no others, the generator fails. In proto2 two fields whose names differ only in case and underscores can give the same constant twice.", "quantifier": "all message types: any number of fields, any field names, all rules in all places (fields, wrappers, items, keys, values, oneofs)", "why_tests_cant": "the name of a constant is computed from the names of field, place and rule by a case conversion that inserts underscores; that no two coincide, and that declaration and use agree, has to hold for all names and combinations of rules", "anchors": ["templates/java/register.go:constantName", "templates/java/register.go:javaTypeFor", "templates/java/register.go:renderConstants", "templates/java/register.go:unwrap", "templates/java/num.go:numConstTpl", "templates/java/enum.go:enumConstTpl"]}
{"id": "C61", "title": "Generated C++ uses the names that protoc makes", "statement": "The getters and has-methods in generated C++ are those that protoc generates exactly for the field names without capital letters that are not C++ keywords (const and inline are allowed). The constants for the cases of a oneof are right unless the name of the member begins with an underscore, and the enum of the cases is right exactly if each underscore in the name of the oneof is before a small letter and none at the beginning. Class names are right for packages with a dot and packages of one word. The variables that register the validators of a file are distinct if the classes are.", "quantifier": "all field names, oneof names, packages and message paths", "why_tests_cant": "names are computed by two programs, one of them with Go's case conversion; agreement has to hold for every identifier", "anchors": ["templates/cc/register.go:methodName", "templates/cc/register.go:accessor", "templates/cc/register.go:hasAccessor", "templates/cc/register.go:oneofTypeName", "templates/cc/register.go:className", "templates/cc/register.go:packageName", "templates/cc/register.go:staticVarName"]}
{"id": "C62", "title": "The tables in generated C++ exist, are declared once and hold the rule's values", "statement": "For every file whose rules fit their fields and whose names follow the style guide, the sets for in and not_in and the regular expressions for pattern are declared once (unless both keys and values of a map have patterns); those needed by rules on fields (and StringValue), on string and enum items, and by patterns on strings exist with the right type and values; the others do not exist, so the C++ does not compile (or, for bytes values beside a pattern for keys, uses the wrong pattern). The generator fails exactly on lists for other wrappers and on rules for wrappers in lists and maps. Everything for which C42 proves C++ right is on the good side.", "quantifier": "all files: any messages at any depth, any fields, rules and places of rules", "why_tests_cant": "the declarations are rendered by one template from the descriptors, the uses by others from rule contexts; that both agree has to hold for every combination of type, place and rule, and distinctness for all names", "anchors": ["templates/cc/msg.go:msgTpl", "templates/cc/in.go:inTpl", "templates/cc/any.go:anyTpl", "templates/cc/duration.go:durationTpl", "templates/cc/register.go:lookup", "templates/cc/register.go:inType", "templates/cc/register.go:unwrap"]}
{"id": "C63", "title": "Constants of rules reach the checks in generated Python unchanged", "statement": "The Python source written for a check of a string constant (const, prefix, suffix, contains, not_contains), at any indentation, is read by Python as a comparison with exactly that text, and names it in the exception, if and only if (for a text on one line) it has no double quote, no NUL and no backslash that begins an escape sequence; a text with a line break after a harmless part is a syntax error. Lists for in and not_in, of strings without quotes or of bytes without quotes, bytes constants and patterns, and string patterns without quotes, line breaks and \\N, \\u, \\U, \\x reach the check unchanged. The text between two double quotes of a constant is run as code. Every constant for which C43 proves Python right is among those that survive.", "quantifier": "all constants (any Unicode text, any bytes), all lists, all nestings of indentation, all field names", "why_tests_cant": "the source is put together from text by templates, filters and repr; that Python reads back the same constant has to hold for every text, and the texts for which it does not are an infinite set whose border tests cannot find", "anchors": ["python/protoc_gen_validate/validator.py:string_template", "python/protoc_gen_validate/validator.py:bytes_template", "python/protoc_gen_validate/validator.py:in_template", "python/protoc_gen_validate/validator.py:const_template", "python/protoc_gen_validate/validator.py:any_template", "python/protoc_gen_validate/validator.py:switcher_template"]}
{"id": "C64", "title": "The Python source written for a message type is laid out as a program", "statement": "For a message type with any number of fields and oneofs and any combination of rules, the text that the Python validator writes for it consists of lines and blocks as Python requires: one statement a line, a deeper indented block after every header, every line indented like an open block, else and except behind what they belong to, no open strings or brackets. Exceptions are these and no others: ignore_empty with no check to guard, a wrapper rule with no check, ignore_empty for a string that is an item, a key, a value or a member of a oneof, and a duration with const, in or not_in whose upper bound is not written as a range with a lower end below it. Each of these is an exception, and for string, bytes, number and duration rules they are exactly the rules for which C43 says that there is no source to run.", "quantifier": "all answers of all conditions in all templates, all numbers of fields, oneofs and options, all nestings of one template in another", "why_tests_cant": "each of more than a hundred conditions in seventeen templates adds or removes lines, with white space control at its edges, and templates are indented into each other; the combinations cannot be enumerated, and two that never meet in the test suite produced source that does not compile", "anchors": ["python/protoc_gen_validate/validator.py:file_template", "python/protoc_gen_validate/validator.py:rule_type", "python/protoc_gen_validate/validator.py:string_template", "python/protoc_gen_validate/validator.py:num_template", "python/protoc_gen_validate/validator.py:duration_template", "python/protoc_gen_validate/validator.py:repeated_template", "python/protoc_gen_validate/validator.py:map_template", "python/protoc_gen_validate/validator.py:wrapper_template"]}
