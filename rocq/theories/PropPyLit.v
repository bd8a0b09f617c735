(** C63: the constants of rules in the source that Python executes. *)
From Verif Require Import Base Utf8 Utf8Facts Spec LitSpec Py PySpec PyLit PyLex PyLitSpec PyLitFacts PyLitMore PyReprFacts.
Local Open Scope N_scope.

(** ** Texts between double quotes *)

(** The source of const, prefix, suffix, contains and not_contains of strings, however it is indented, is read as the check of this very text, with the
    text in the exception, if and only if the text has no double quote, no NUL, and no backslash that starts an escape sequence. *)
Theorem py_constants_exact unicode ws k name s : a_name name -> one_line s ->
  (reads unicode (indents ws (string_check k name s)) = Some (two_lines (list_sum ws) (code_before k name) [Lit s] (code_after k name) (name ++ complaint k ++ s))
   <-> harmless s = true).
Proof. exact (string_exact unicode ws k name s). Qed.
Print Assumptions py_constants_exact.
Example py_constants_met : a_name (bs "p.tags[key]") /\ one_line (bs "it's \d") /\ harmless (bs "it's \d") = true /\
  indents [4; 4]%nat (string_check Const (bs "p.x") (bs "it's")) =
  bs "        if p.x != ""it's"":" ++ [10] ++ bs "                raise ValidationFailed(""p.x not equal to it's"")".
Proof. split; [repeat constructor|]. split; [apply one_line_lit; reflexivity|]. split; reflexivity. Qed.

(** The condition under which Python agrees with the rules, PySpec.py_text, is enough. *)
Theorem py_text_survives unicode ws k name s : a_name name -> py_text s ->
  reads unicode (indents ws (string_check k name (runes s))) =
  Some (two_lines (list_sum ws) (code_before k name) [Lit (runes s)] (code_after k name) (name ++ complaint k ++ runes s)).
Proof. intros A T. apply text_harmless in T. destruct T as [O H]. now apply string_exact. Qed.
Print Assumptions py_text_survives.
Example py_text_met : py_text (bs "it's") /\ runes (bs "it's") = bs "it's".
Proof.
  split; [|reflexivity]. split; [exists (bs "it's"); split; [repeat constructor|reflexivity]|]. unfold line_break. repeat constructor; try discriminate; vm_compute; intuition discriminate.
Qed.

(** With a line break, after a beginning that is harmless, there is no Python: validate fails for all messages of the type. *)
Theorem py_line_breaks_fail unicode w ws k name a c b : a_name name -> one_line a -> harmless a = true ->
  In c [10; 11; 12; 13; 28; 29; 30; 133; 8232; 8233] -> reads unicode (indents (w :: ws) (string_check k name (a ++ c :: b))) = None.
Proof. exact (break_fails unicode w ws k name a c b). Qed.
Print Assumptions py_line_breaks_fail.
Theorem py_line_break_refuted unicode : reads unicode (indents [0]%nat (string_check Const (bs "p.x") (bs "a" ++ [10] ++ bs "b"))) = None.
Proof. vm_compute. reflexivity. Qed.
Print Assumptions py_line_break_refuted.
(** An escape sequence is replaced: this text is a backslash and an n. *)
Theorem py_escape_refuted unicode : reads unicode (indents [0]%nat (string_check Const (bs "p.x") (bs "\n"))) =
  Some (two_lines 0 (bs "p.x != ") [Lit [10]] [] (bs "p.x not equal to " ++ [10])).
Proof. vm_compute. reflexivity. Qed.
Print Assumptions py_escape_refuted.
(** A constant with double quotes is code: whatever stands between them is executed by each validation, and by failing ones again. *)
Theorem py_constants_inject unicode ws name c : a_name name -> plain_code c ->
  reads unicode (indents ws (string_check Const name ([34] ++ c ++ [34]))) =
  Some (chrs (repeat 32 (list_sum ws) ++ bs "if " ++ name ++ bs " != ") ++ [Lit []] ++ chrs c ++ [Lit []] ++
        chrs (bs ":" ++ [10] ++ repeat 32 (list_sum ws + 8) ++ bs "raise ValidationFailed(") ++
        [Lit (name ++ bs " not equal to ")] ++ chrs c ++ [Lit []] ++ chrs (bs ")")).
Proof. exact (read_injected unicode ws name c). Qed.
Print Assumptions py_constants_inject.
Example py_constants_inject_met : plain_code (bs " or exit() or ") /\
  indents [0]%nat (string_check Const (bs "p.x") (bs """ or exit() or """)) =
  bs "if p.x != """" or exit() or """":" ++ [10] ++ bs "        raise ValidationFailed(""p.x not equal to "" or exit() or """")".
Proof.
  split; [|reflexivity]. split; [discriminate|]. split; [apply one_line_lit; reflexivity|]. apply Forall_forall. intros x X. vm_compute in X.
  repeat (destruct X as [<-|X]; [vm_compute; intuition discriminate|]). destruct X.
Qed.

(** ** Constants that are written by repr *)

(** in and not_in of strings, and of the type URLs of Any. *)
Theorem py_lists_survive unicode printable ws (not_in : bool) what name l : printable_ok printable -> a_name what -> a_name name -> Forall py_quoted l ->
  let word := if not_in then bs " in " else bs " not in " in
  reads unicode (indents ws (in_check not_in what name (repr_list (map (fun s => repr printable (runes s)) l)))) =
  Some (two_lines (list_sum ws) (what ++ word) (list_tokens [] (map runes l)) [] (name ++ word ++ shown_list [] (map runes l))).
Proof.
  intros P W A Q. rewrite <- (map_map runes (repr printable)).
  apply strings_exact; auto; apply Forall_map; (eapply Forall_impl; [|exact Q]); intros s S; now apply quoted_fine in S.
Qed.
Print Assumptions py_lists_survive.
Example py_lists_met : Forall py_quoted [bs "a"; bs "b\"] /\
  indents [0]%nat (in_check false (bs "p.x") (bs "p.x") (repr_list (map (fun s => repr (fun _ => true) (runes s)) [bs "a"; bs "b\"]))) =
  bs "if p.x not in ['a', 'b\\']:" ++ [10] ++ bs "        raise ValidationFailed(""p.x not in ['a', 'b\\']"")".
Proof.
  split; [|reflexivity].
  assert (K : forall s, Forall scalar_value s -> List.concat (map utf8_bytes s) = s -> ~ In 39 s -> ~ In 34 s -> py_quoted s).
  { intros s V E A B. split; [exists s; split; [exact V|symmetry; exact E]|]. split; assumption. }
  apply Forall_cons; [|apply Forall_cons; [|apply Forall_nil]].
  - apply K; [repeat constructor|reflexivity|vm_compute; intuition discriminate|vm_compute; intuition discriminate].
  - apply K; [repeat constructor|reflexivity|vm_compute; intuition discriminate|vm_compute; intuition discriminate].
Qed.
(** const, prefix, suffix and contains of bytes, their in and not_in, and patterns. *)
Theorem py_bytes_survive unicode ws k name s : for_bytes k -> a_name name -> octets s -> py_bytes_const s ->
  reads unicode (indents ws (bytes_check k name s)) =
  Some (two_lines (list_sum ws) (code_before k name) (chrs (bs "b") ++ [Lit s]) (code_after k name) (name ++ complaint k ++ bs "b'" ++ s ++ bs "'")).
Proof. exact (bytes_exact unicode ws k name s). Qed.
Print Assumptions py_bytes_survive.
Theorem py_bytes_lists_survive unicode ws (not_in : bool) name l : a_name name -> Forall octets l -> Forall py_bytes_const l ->
  let word := if not_in then bs " in " else bs " not in " in
  reads unicode (indents ws (in_check not_in name name (repr_list (map repr_bytes l)))) =
  Some (two_lines (list_sum ws) (name ++ word) (list_tokens (bs "b") l) [] (name ++ word ++ shown_list (bs "b") l)).
Proof. intros A O Q. now apply bytes_list_exact. Qed.
Print Assumptions py_bytes_lists_survive.
Example py_bytes_met : octets [0; 10; 92; 200; 255] /\ py_bytes_const [0; 10; 92; 200; 255] /\ for_bytes Prefix /\
  repr_bytes [0; 10; 92; 200; 255] = bs "b'\x00\n\\\xc8\xff'".
Proof. split; [repeat constructor|]. split; [split; cbn; intuition discriminate|]. split; [discriminate|reflexivity]. Qed.
(** The pattern of bytes is read as it was encoded. *)
Theorem py_bytes_patterns_survive unicode ws name p : a_name name ->
  reads unicode (indents ws (bytes_pattern_check name (runes p))) =
  Some (two_lines (list_sum ws) (bs "re.search(") (chrs (bs "b") ++ [Lit (unicode_escape p)]) (bs ", " ++ name ++ bs ") is None")
          (name ++ bs " pattern does not match b['pattern'].encode('unicode-escape')")).
Proof. exact (bytes_pattern_exact unicode ws name (runes p)). Qed.
Print Assumptions py_bytes_patterns_survive.
(** With a quote in a string of a list there is no Python, as the list is pasted between double quotes. *)
Theorem py_list_quotes_refuted unicode : reads unicode (indents [0]%nat (in_check false (bs "p.x") (bs "p.x") (repr_list [repr (fun _ => true) (bs "it's")]))) = None /\
  reads unicode (indents [0]%nat (in_check false (bs "p.x") (bs "p.x") (repr_list [repr (fun _ => true) (bs "a""b")]))) = None.
Proof. vm_compute. auto. Qed.
Print Assumptions py_list_quotes_refuted.

(** ** Patterns of strings *)
Theorem py_patterns_survive unicode ws name p : a_name name -> py_regex p -> exists msg,
  reads unicode (indents ws (pattern_check name (runes p))) =
  Some (two_lines (list_sum ws) (bs "re.search(r") [Lit (runes p)] (bs ", " ++ name ++ bs ") is None") msg).
Proof. intros A R. apply pattern_exact; [assumption|now apply regex_fine]. Qed.
Print Assumptions py_patterns_survive.
Example py_patterns_met unicode : py_regex (bs "^\d+[a-z]$") /\
  reads unicode (indents [0]%nat (pattern_check (bs "p.x") (bs "^\d+[a-z]$"))) =
  Some (two_lines 0 (bs "re.search(r") [Lit (bs "^\d+[a-z]$")] (bs ", p.x) is None") (bs "p.x pattern does not match ^\d+[a-z]$")).
Proof.
  split; [|vm_compute; reflexivity]. split; [exists (bs "^\d+[a-z]$"); split; [repeat constructor|reflexivity]|]. split.
  - apply Forall_forall. intros x X. vm_compute in X. repeat (destruct X as [<-|X]; [refine (conj _ (conj _ (conj _ _))); try discriminate; vm_compute; intuition discriminate|]). destruct X.
  - intros a b E. change (94 :: 92 :: bs "d+[a-z]$" = a ++ 92 :: b) in E. destruct a as [|x [|y a]]; [discriminate E|injection E as <- <-; eexists; eexists; split; [reflexivity|vm_compute; intuition discriminate]|].
    injection E as _ _ E. exfalso. assert (K : In 92 (a ++ 92 :: b)) by (apply in_or_app; right; now left).
    rewrite <- E in K. vm_compute in K. intuition discriminate.
Qed.
(** A pattern with \u or an apostrophe is not Python, although it is a pattern. *)
Theorem py_patterns_refuted unicode : reads unicode (indents [0]%nat (pattern_check (bs "p.x") (bs "\u00"))) = None /\
  reads unicode (indents [0]%nat (pattern_check (bs "p.x") (bs "it's"))) <>
  Some (two_lines 0 (bs "re.search(r") [Lit (bs "it's")] (bs ", p.x) is None") (bs "p.x pattern does not match it's")).
Proof. split; [vm_compute; reflexivity|]. vm_compute. discriminate. Qed.
Print Assumptions py_patterns_refuted.

(** ** A whole source: lines are read one after the other, so that a check is read alike wherever it stands *)
Theorem py_checks_apart unicode a b t : reads unicode a = Some t ->
  reads unicode (a ++ [10] ++ b) = match reads unicode b with Some u => Some (t ++ chrs [10] ++ u) | None => None end.
Proof. intros H. unfold reads at 1. cbn [app]. rewrite (read_newline unicode a (Code 10) t b H). destruct (reads unicode b); [|reflexivity]. cbn [prepend]. now rewrite <- app_assoc. Qed.
Print Assumptions py_checks_apart.
Example py_checks_apart_met unicode : reads unicode (bs "x != ""a""") = Some (chrs (bs "x != ") ++ [Lit (bs "a")]).
Proof. vm_compute. reflexivity. Qed.
