(** C29: literals in generated code mean what the rule says.  C30: output paths.

    [is_print] is strconv.IsPrint above ASCII; all that is asked of it is that it rejects the byte order mark. *)
From Coq Require Import Lia ZifyBool ZifyN ZifyNat.
From Verif Require Import Base Utf8 Spec BaseFacts Lit LitSpec LitFacts.
Local Open Scope N_scope.

Definition latin (r : rune) : bool := (0xA1 <=? r) && (r <? 0x250).
Ltac chars := repeat (apply Forall_cons; [unfold scalar_value; lia|]); apply Forall_nil.

(** ** C29, Go *)

(** A string literal means the string, whatever its bytes. *)
Theorem go_string_literal : forall is_print, is_print 0xFEFF = false -> forall s, is_bytes s = true -> go_string (quote is_print s) s.
Proof. exact quote_go. Qed.
Example go_string_literal_ex : go_string (bs """a\""\\\n\x00\xff""") (bs "a""\" ++ [10; 0; 255]).
Proof. apply (quote_go latin eq_refl (bs "a""\" ++ [10; 0; 255])); reflexivity. Qed.
Print Assumptions go_string_literal.

(** And nothing else. *)
Theorem go_string_one_value : forall src v v', go_string src v -> go_string src v' -> v = v'.
Proof. exact go_string_fun. Qed.
Print Assumptions go_string_one_value.

Theorem go_bytes_literal : forall x, is_bytes x = true -> go_uint8s (go_bytes_lit x) x.
Proof. exact go_bytes_go. Qed.
Example go_bytes_literal_ex : go_bytes_lit [0; 16; 255] = bs "[]uint8{0x0, 0x10, 0xFF}".
Proof. reflexivity. Qed.
Print Assumptions go_bytes_literal.

Theorem go_int_literal : forall z v, go_int (dec_int z) v <-> v = z.
Proof. intros z v. split; [intros H; eapply go_int_fun; [exact H|apply dec_int_go]|intros ->; apply dec_int_go]. Qed.
Example go_int_literal_ex : dec_int (-9223372036854775808) = bs "-9223372036854775808" /\ dec_int 18446744073709551615 = bs "18446744073709551615".
Proof. split; reflexivity. Qed.
Print Assumptions go_int_literal.

(** The keys of the [in] and [not_in] lookup tables for bytes, and the values of prefix, suffix and contains in messages. *)
Theorem go_bytes_key : forall x, is_bytes x = true -> (go_string (byte_str x) x <-> Forall (fun b => 16 <= b) x).
Proof. intros x B. split; [apply byte_str_only|now apply byte_str_go]. Qed.
Example go_bytes_key_ex : byte_str [16; 255] = bs """\x10\xFF""" /\ Forall (fun b => 16 <= b) [16; 255].
Proof. split; [reflexivity|]. repeat constructor; lia. Qed.
Print Assumptions go_bytes_key.

Theorem go_bytes_key_invalid : forall x v, is_bytes x = true -> (exists b, In b x /\ b < 16) -> ~ go_string (byte_str x) v.
Proof.
  intros x v B (b & I & L) G. apply byte_str_only in G. rewrite Forall_forall in G. apply G in I. lia.
Qed.
Theorem go_bytes_key_refuted : exists x, is_bytes x = true /\ forall v, ~ go_string (byte_str x) v.
Proof.
  exists (bs "a" ++ [0]). split; [reflexivity|]. intros v. apply go_bytes_key_invalid; [reflexivity|].
  exists 0. cbn. split; [auto|lia].
Qed.
Print Assumptions go_bytes_key_invalid.
Print Assumptions go_bytes_key_refuted.

(** ** C29, C++ *)

(** Only a control character written in hexadecimal and followed by a hexadecimal digit goes wrong. *)
Theorem cc_string_literal : forall is_print cs, Forall scalar_value cs ->
  (forall a c d b, cs = a ++ c :: d :: b -> c < 32 -> ~ 7 <= c <= 13 -> ~ is_hex d) ->
  let s := List.concat (map utf8_bytes cs) in cc_string (quote is_print s) s.
Proof. exact quote_cc. Qed.
Example cc_string_literal_ex : Forall scalar_value [233; 1; 122; 97] /\
  (forall a c d b, [233; 1; 122; 97] = a ++ c :: d :: b -> c < 32 -> ~ 7 <= c <= 13 -> ~ is_hex d).
Proof.
  split; [chars|]. intros a c d b E L N.
  destruct a as [|x1 [|x2 [|x3 [|x4 a]]]]; injection E; intros; subst; try lia.
  - unfold is_hex. cbn. congruence.
  - destruct a; discriminate.
Qed.
Print Assumptions cc_string_literal.

Theorem cc_string_literal_refuted : forall is_print,
  exists s, valid_utf8 s /\ forall v, cc_string (quote is_print s) v -> v <> s.
Proof.
  intros is_print. exists [1; 97]. split; [exists [1; 97]; split; [chars|reflexivity]|].
  intros v G. rewrite (quote_cc_wrong _ _ G). discriminate.
Qed.
Print Assumptions cc_string_literal_refuted.

(** Literals for bytes are right; a [std::string] made from one ends at its first NUL. *)
Theorem cc_bytes_literal : forall x, is_bytes x = true -> cc_string (cc_bytes_lit x) x /\ cc_string (byte_str x) x.
Proof. intros x B. split; [now apply cc_bytes_cc|now apply byte_str_cc]. Qed.
Example cc_bytes_literal_ex : cc_bytes_lit [5; 65] = bs """\x5\x41""".
Proof. reflexivity. Qed.
Theorem cc_bytes_string : forall x, until_nul x = x <-> ~ In 0 x.
Proof. exact until_nul_all. Qed.
Theorem cc_bytes_string_refuted : exists x, is_bytes x = true /\ cc_string (cc_bytes_lit x) x /\ until_nul x <> x.
Proof. exists [65; 0; 66]. split; [reflexivity|]. split; [now apply cc_bytes_cc|discriminate]. Qed.
Print Assumptions cc_bytes_literal.
Print Assumptions cc_bytes_string.
Print Assumptions cc_bytes_string_refuted.

(** ** C29, Java *)
Theorem java_bytes_literal : forall x, is_bytes x = true -> java_bytes (java_bytes_lit x) x.
Proof. exact java_bytes_java. Qed.
Example java_bytes_literal_ex : java_bytes_lit [5; 255] = bs "new byte[]{(byte)0x5,(byte)0xff,}".
Proof. reflexivity. Qed.
Print Assumptions java_bytes_literal.

(** const, in, not_in, prefix, suffix, contains and not_contains: no line end, quote or backslash. *)
Theorem java_string_literal : forall s, valid_utf8 s ->
  (java_string (java_raw s) s <-> forall x, In x [10; 13; 34; 92] -> ~ In x s).
Proof. exact java_raw_java. Qed.
Example java_string_literal_ex : valid_utf8 (bs "a.b" ++ [195; 169]) /\ (forall x, In x [10; 13; 34; 92] -> ~ In x (bs "a.b" ++ [195; 169])).
Proof.
  split; [exists [97; 46; 98; 233]; split; [chars|reflexivity]|].
  intros x I J. cbn in I, J. lia.
Qed.
Print Assumptions java_string_literal.
(** A rule [const: "a\\tb"] (a backslash and a t) asks for a tabulator. *)
Theorem java_string_literal_refuted : exists s v, valid_utf8 s /\ java_string (java_raw s) v /\
  (forall v', java_string (java_raw s) v' -> v' = v) /\ v <> s.
Proof.
  exists (bs "a\tb"), [97; 9; 98]. repeat split.
  - exists [97; 92; 116; 98]; split; [chars|reflexivity].
  - exists (bs "a\tb"). split; [reflexivity|]. apply (java_char 97 [92; 116; 98] [9; 98]);
      [unfold scalar_value; lia|cbn; lia|]. apply (java_esc 116 9 [98] [98]); [cbn; tauto|].
    apply (java_char 98 [] []); [unfold scalar_value; lia|cbn; lia|constructor].
  - apply java_raw_tab.
  - discriminate.
Qed.
Print Assumptions java_string_literal_refuted.

(** Patterns. *)
Theorem java_pattern_literal : forall is_print cs, Forall scalar_value cs -> Forall (shared_char is_print) cs ->
  nowhere (bs "\x") cs -> nowhere (bs "\u00") cs ->
  let s := List.concat (map utf8_bytes cs) in java_string (java_escape is_print s) s.
Proof.
  intros is_print cs S P N1 N2. apply java_escape_java; auto. eapply Forall_impl; [|exact P]. intros c. apply shared_plain.
Qed.
Lemma nowhere_dec p s : contains s p = false -> nowhere p s.
Proof.
  intros H a b ->. assert (contains (a ++ p ++ b) p = true); [|congruence].
  clear H. induction a as [|x a IH]; cbn [app].
  - destruct (p ++ b) eqn:E; cbn [contains]; rewrite <- E; rewrite (proj2 (prefix_app_iff _ _)) by eauto; reflexivity.
  - cbn [contains]. rewrite IH. now rewrite orb_true_r.
Qed.
Example java_pattern_literal_ex : let cs := bs "^\d+\.[a-z]" ++ [9; 233] in
  Forall scalar_value cs /\ Forall (shared_char latin) cs /\ nowhere (bs "\x") cs /\ nowhere (bs "\u00") cs.
Proof.
  cbn zeta. split; [|split; [|split]].
  - change (bs "^\d+\.[a-z]" ++ [9; 233]) with [94; 92; 100; 43; 92; 46; 91; 97; 45; 122; 93; 9; 233]. chars.
  - change (bs "^\d+\.[a-z]" ++ [9; 233]) with [94; 92; 100; 43; 92; 46; 91; 97; 45; 122; 93; 9; 233].
    unfold shared_char. repeat (apply Forall_cons; [first [right; left; split; [split; [|reflexivity]|]; discriminate|left; cbn; tauto|right; left; lia|right; right; split; [lia|reflexivity]]|]). constructor.
  - apply nowhere_dec. reflexivity.
  - apply nowhere_dec. reflexivity.
Qed.
Print Assumptions java_pattern_literal.
(** A pattern with a quote, or with a hexadecimal escape, does not compile. *)
Theorem java_pattern_literal_refuted : forall is_print v,
  ~ java_string (java_escape is_print (bs """")) v /\ ~ java_string (java_escape is_print (bs "\x41")) v.
Proof. intros. split; [apply java_quote_uncompilable|apply java_hex_uncompilable]. Qed.
Print Assumptions java_pattern_literal_refuted.

(** Numbers: the constants of 32-bit fields have no suffix, those of 64-bit fields have L. *)
Theorem java_int_literal : forall z, (exists v, java_int (dec_int z) v) <-> (- 2 ^ 31 <= z < 2 ^ 31)%Z.
Proof. exact java_int_lit. Qed.
Theorem java_long_literal : forall z, (exists v, java_long (dec_int z ++ bs "L") v) <-> (- 2 ^ 63 <= z < 2 ^ 63)%Z.
Proof. exact java_long_lit. Qed.
Example java_int_literal_ex : (exists v, java_int (dec_int 2147483647) v) /\ (exists v, java_long (dec_int (-1) ++ bs "L") v).
Proof. split; [apply java_int_literal|apply java_long_literal]; lia. Qed.
(** So a uint32 rule from 2^31 or a uint64 rule from 2^63 does not compile. *)
Theorem java_unsigned_refuted :
  (exists z, (0 <= z < 2 ^ 32)%Z /\ forall v, ~ java_int (dec_int z) v) /\
  (exists z, (0 <= z < 2 ^ 64)%Z /\ forall v, ~ java_long (dec_int z ++ bs "L") v).
Proof.
  split; [exists 2147483648%Z|exists 9223372036854775808%Z]; (split; [lia|]); intros v G.
  - assert (X : exists v, java_int (dec_int 2147483648) v) by eauto. apply java_int_lit in X. lia.
  - assert (X : exists v, java_long (dec_int 9223372036854775808 ++ [76]) v) by eauto. apply java_long_lit in X. lia.
Qed.
Print Assumptions java_int_literal.
Print Assumptions java_long_literal.
Print Assumptions java_unsigned_refuted.

(** ** C30 *)

(** The module parameter is removed once from the front, with the slashes after it. *)
Theorem path_below_module : forall module rest, nowhere module rest ->
  below module (module ++ rest) (out_path (module ++ rest) module).
Proof. exact out_path_below. Qed.
Example path_below_module_ex : nowhere (bs "example.com/m") (bs "/foo/a.pb.validate.go") /\
  out_path (bs "example.com/m/foo/a.pb.validate.go") (bs "example.com/m") = bs "foo/a.pb.validate.go".
Proof. split; [apply nowhere_dec|]; reflexivity. Qed.
Theorem path_without_module : forall module out, module = [] \/ nowhere module out -> below [] out (out_path out module).
Proof. exact out_path_plain. Qed.
Example path_without_module_ex : nowhere (bs "example.com/m") (bs "/foo/a.pb.validate.go") /\
  out_path (bs "/foo/a.pb.validate.go") (bs "example.com/m") = bs "foo/a.pb.validate.go".
Proof. split; [apply nowhere_dec|]; reflexivity. Qed.
Theorem path_below_unique : forall module out p p', below module out p -> below module out p' -> p = p'.
Proof. exact below_fun. Qed.
Print Assumptions path_below_module.
Print Assumptions path_without_module.
Print Assumptions path_below_unique.

(** The module name is also removed from the middle. *)
Theorem path_below_module_refuted : exists module rest, module <> [] /\
  ~ below module (module ++ rest) (out_path (module ++ rest) module).
Proof.
  exists (bs "foo"), (bs "/v1/foo.pb.validate.go"). split; [discriminate|].
  intros H. assert (X : below (bs "foo") (bs "foo/v1/foo.pb.validate.go") (bs "v1/foo.pb.validate.go")).
  { exists 1%nat. split; [reflexivity|discriminate]. }
  assert (Y := below_fun _ _ _ _ H X). vm_compute in Y. discriminate.
Qed.
(** So two files can get one path. *)
Theorem path_injective_refuted : exists module rest rest', rest <> rest' /\ (forall t, rest <> 47 :: 47 :: t) /\ (forall t, rest' <> 47 :: 47 :: t) /\
  out_path (module ++ rest) module = out_path (module ++ rest') module.
Proof.
  exists (bs "foo"), (bs "/v1/foo.pb.validate.go"), (bs "/v1/.pb.validate.go").
  split; [intros E; vm_compute in E; discriminate E|].
  split; [intros t E; vm_compute in E; discriminate E|]. split; [intros t E; vm_compute in E; discriminate E|vm_compute; reflexivity].
Qed.
Print Assumptions path_below_module_refuted.
Print Assumptions path_injective_refuted.
