(** Text helpers of the generated Go code against their specifications (C07-C11, C13). *)
From Verif Require Import Base Utf8 Regex Known Spec BaseFacts Utf8Facts RegexFacts KnownFacts HostFacts.

(** C09: [_validateHostname] accepts exactly the hostnames. *)
Theorem hostname_helper_exact : forall s, validate_hostname s = None <-> hostname s.
Proof. exact validate_hostname_spec. Qed.
Print Assumptions hostname_helper_exact.
Example hostname_helper_ex :
  validate_hostname (bs "a-1.Example.com.") = None /\ validate_hostname (bs "-a.com") <> None.
Proof. split; [reflexivity|discriminate]. Qed.

(** C09: for ASCII input these are the hostnames of RFC 1034. *)
Theorem hostname_helper_ascii : forall s, Forall (fun c => c < 128)%N s ->
  (validate_hostname s = None <-> rfc_hostname s).
Proof. intros s A. exact (iff_trans (validate_hostname_spec s) (hostname_ascii s A)). Qed.
Print Assumptions hostname_helper_ascii.
Example hostname_helper_ascii_ex : Forall (fun c => c < 128)%N (bs "a-1.Example.com.") /\ validate_hostname (bs "a-1.Example.com.") = None.
Proof. split; [repeat constructor|reflexivity]. Qed.

(** C09 is false beyond ASCII: U+212A (Kelvin sign) is accepted, because it lower-cases to "k". *)
Theorem hostname_helper_non_ascii_refuted : exists s c, In c s /\ (128 <= c)%N /\ validate_hostname s = None.
Proof. exists [0xE2; 0x84; 0xAA]%N, 0xE2%N. split; [left; reflexivity|]. split; [discriminate|reflexivity]. Qed.
Print Assumptions hostname_helper_non_ascii_refuted.

(** C09: [_validateEmail] on what [mail.ParseAddress] returned. *)
Theorem email_helper_exact : forall p, validate_email p = None <-> email_ok p.
Proof. exact validate_email_spec. Qed.
Print Assumptions email_helper_exact.
Example email_helper_ex : validate_email (Some (bs "bob@example.com")) = None.
Proof. reflexivity. Qed.

(** C10: [_validateUuid] accepts exactly 8-4-4-4-12 hexadecimal digits. *)
Theorem uuid_helper_exact : forall s, validate_uuid s = true <-> uuid s.
Proof. exact validate_uuid_spec. Qed.
Print Assumptions uuid_helper_exact.
Example uuid_helper_ex : validate_uuid (bs "123e4567-E89B-12d3-a456-426614174000") = true.
Proof. vm_compute. reflexivity. Qed.

(** C07: the length a string rule looks at is the number of code points. *)
Theorem string_length_exact : forall s n, rune_count s = n <-> chars_count s n.
Proof. intros s n. symmetry. exact (chars_count_iff s n). Qed.
Print Assumptions string_length_exact.
Example string_length_ex : rune_count [0xC3; 0xA9; 65; 0xFF]%N = 3%N.
Proof. reflexivity. Qed.

(** C08: prefix, suffix, contains. *)
Theorem prefix_suffix_contains_exact : forall s p,
  (has_prefix s p = true <-> starts_with s p) /\ (has_suffix s p = true <-> ends_with s p) /\
  (contains s p = true <-> has_inside s p).
Proof. intros s p. exact (conj (has_prefix_spec s p) (conj (has_suffix_spec s p) (contains_spec s p))). Qed.
Print Assumptions prefix_suffix_contains_exact.
Example prefix_suffix_contains_ex :
  has_prefix (bs "foobar") (bs "foo") = true /\ has_suffix (bs "foobar") (bs "bar") = true /\
  contains (bs "foobar") (bs "oba") = true.
Proof. auto. Qed.

(** C11: the language of the three header patterns. *)
Theorem header_patterns_exact : forall s l, decodes s l ->
  (rmatch header_name_re (runes s) = true <-> header_name l) /\
  (rmatch header_value_re (runes s) = true <-> header_value l) /\
  (rmatch header_string_re (runes s) = true <-> header_line l).
Proof.
  intros s l H. apply decodes_iff in H. subst l. rewrite !rmatch_spec.
  exact (conj (lang_header_name _) (conj (lang_header_value _) (lang_header_string _))).
Qed.
Print Assumptions header_patterns_exact.
Example header_patterns_ex : rmatch header_name_re (runes (bs ":a,b")) = true.
Proof. vm_compute. reflexivity. Qed.

(** C11: header names are those of RFC 7230, except that commas are allowed too. *)
Theorem header_name_pattern_chars : forall c, token_char c <-> tchar c \/ c = 44%N.
Proof. exact token_or_comma. Qed.
Print Assumptions header_name_pattern_chars.
Theorem header_name_pattern_refuted : exists s l, decodes s l /\ rmatch header_name_re (runes s) = true /\ ~ rfc_header_name l.
Proof. exact comma_name. Qed.
Print Assumptions header_name_pattern_refuted.

(** C13: [net.IP.To4] and [To16] on raw bytes. *)
Theorem ip_bytes_exact : forall s,
  (to4_ok s = true <-> ip4_bytes s) /\ (to16_ok s = true <-> ip_bytes s).
Proof. intros s. exact (conj (to4_ok_spec s) (to16_ok_spec s)). Qed.
Print Assumptions ip_bytes_exact.
Example ip_bytes_ex : to4_ok [127; 0; 0; 1]%N = true.
Proof. reflexivity. Qed.
