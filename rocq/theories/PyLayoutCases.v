(** The sources of single fields: which rules give lines of a Python program. *)
From Verif Require Import Base Num Rules Py Jinja PyTemplates PyLines PyLayout PyLayoutSpec PyRuleSpec PyReach PyReachAlts PyReachFacts PyLayoutFacts.

Definition field_head : text := bs "
def generate_validate(p):
    ".
Definition member_head : text := bs "
def generate_validate(p):
    present = False
    if _has_field(p, ""x""):
        present = True
        ".
Definition foot : text := bs "
    return None".
Definition field_pos : pos := Pos (reads start field_head) [] [0].
Definition member_pos : pos := enter 4 (Pos (reads start member_head) [] [0]).

Definition run_at (al : text -> list assume) (p : pos) (e : string) (b : bool) (a : assume) : bool :=
  match parsed_at (bs e) with
  | Some t =>
      match reach calls parsed_at al 6 a t [p] with
      | Some l => forallb (fun q => Bool.eqb (finished (reads (p_state q) foot)) b) l
      | None => false
      end
  | None => false
  end.

Section Case.
Variables (al : text -> list assume) (may : text -> tpl -> env -> Prop).
Hypothesis covers : forall e t v, may e t v -> parsed_at e = Some t /\ exists a, In a (al e) /\ agrees a v.

Lemma run_case p st fs e b a v s : p = Pos st fs [0] -> written may e v s -> agrees a v -> run_at al p e b a = true ->
  finished (reads (fst (put st fs s)) foot) = b.
Proof.
  intros -> (t & j & T & R) A H. rewrite parsed_same in T. unfold run_at in H. rewrite T in H.
  destruct (reach calls parsed_at al 6 a t [Pos st fs [0]]) as [l|] eqn:E; [|discriminate].
  pose proof (reach_sound calls parsed_at al may covers v t 0 s j R 6 a _ l st fs [] A E (or_introl eq_refl)) as I.
  rewrite forallb_forall in H. specialize (H _ I). apply Bool.eqb_prop in H. rewrite <- H. unfold after. now destruct (put st fs s).
Qed.
Lemma field_case e b a v s : written may e v s -> agrees a v -> run_at al field_pos e b a = true -> python_lines (field_file s) = b.
Proof.
  intros W A H. pose proof (run_case field_pos _ _ e b a v s eq_refl W A H) as F.
  unfold python_lines, field_file. rewrite !reads_app. exact F.
Qed.
Lemma member_case e b a v s : written may e v s -> agrees a v -> run_at al member_pos e b a = true -> python_lines (member_file s) = b.
Proof.
  intros W A H. unfold member_pos in H. rewrite enter_eq in H. pose proof (put_indent (reads start member_head) [] 4 s) as PI.
  destruct (put (reads start member_head) [] (spaces 4)) as [st1 fs1].
  pose proof (run_case _ _ _ e b a v s eq_refl W A H) as F.
  destruct (put st1 ((4, false) :: fs1) s) as [st2 fs2]. cbn [put] in PI. injection PI as P _. cbn [fst] in F.
  unfold python_lines, member_file. rewrite !reads_app. rewrite P in F. exact F.
Qed.
Lemma field_cases e b l v s : written may e v s -> covered l v -> forallb (run_at al field_pos e b) l = true -> python_lines (field_file s) = b.
Proof. intros W (a & I & A) H. rewrite forallb_forall in H. exact (field_case e b a v s W A (H a I)). Qed.
Lemma member_cases e b l v s : written may e v s -> covered l v -> forallb (run_at al member_pos e b) l = true -> python_lines (member_file s) = b.
Proof. intros W (a & I & A) H. rewrite forallb_forall in H. exact (member_case e b a v s W A (H a I)). Qed.
End Case.

Definition free (e : text) : list assume := [[]].
Definition all_off (l : list string) : assume := map (fun c => (bs c, false)) l.

Lemma existsb_checks l v : existsb (holds v) l = true -> checks l v.
Proof. intros H. apply existsb_exists in H. exact H. Qed.
Lemma off_agrees l v : existsb (holds v) l = false -> agrees (all_off l) v.
Proof.
  induction l as [|c l IH]; intros H; [apply agrees_nil|]. cbn [existsb] in H. apply orb_false_iff in H. destruct H as [H K].
  apply agrees_cons; [exact H | now apply IH].
Qed.

(** ** One template, with ignore_empty and checks *)
Section Ignoring.
Variables (e ign : string) (cs others : list string).
Hypothesis ok : forallb (run_at free field_pos e true) (case_of ign cs) = true.
Hypothesis bad : run_at free field_pos e false ((bs ign, true) :: all_off (cs ++ others)) = true.
Lemma ignoring_lines v s : existsb (holds v) others = false -> written any_call e v s ->
  python_lines (field_file s) = negb (holds v ign && negb (existsb (holds v) cs)).
Proof.
  intros O W. destruct (holds v ign && negb (existsb (holds v) cs)) eqn:B; cbn [negb].
  - apply andb_true_iff in B. destruct B as [I N]. apply negb_true_iff in N.
    apply (field_case free any_call any_covers e false ((bs ign, true) :: all_off (cs ++ others)) v s W); [|exact bad].
    apply agrees_cons; [exact I|]. apply off_agrees. rewrite existsb_app, N, O. reflexivity.
  - apply (field_cases free any_call any_covers e true (case_of ign cs) v s W); [|exact ok].
    apply case_cover. intros I. apply existsb_checks. change (holds v ign = true) in I. rewrite I in B. cbn [andb] in B. now apply negb_false_iff in B.
Qed.
End Ignoring.

Definition string_others : list string :=
  ["str(o.bool) and o.bool['const'] != """""; "str(o.enum) and o.enum['const']"; "str(o.bytes) and o.bytes.HasField('const')"]%string.
Definition bytes_others : list string :=
  ["str(o.string) and o.string.HasField('const')"; "str(o.bool) and o.bool['const'] != """""; "str(o.enum) and o.enum['const']"]%string.
Lemma string_ok : forallb (run_at free field_pos "string_template(option_value, name)" true) (case_of "s['ignore_empty']" string_checks) = true.
Proof. vm_cast_no_check (eq_refl true). Qed.
Lemma string_bad : run_at free field_pos "string_template(option_value, name)" false
  ((bs "s['ignore_empty']", true) :: all_off (string_checks ++ string_others)) = true.
Proof. vm_cast_no_check (eq_refl true). Qed.
Lemma bytes_ok : forallb (run_at free field_pos "bytes_template(option_value, name)" true) (case_of "b['ignore_empty']" bytes_checks) = true.
Proof. vm_cast_no_check (eq_refl true). Qed.
Lemma bytes_bad : run_at free field_pos "bytes_template(option_value, name)" false
  ((bs "b['ignore_empty']", true) :: all_off (bytes_checks ++ bytes_others)) = true.
Proof. vm_cast_no_check (eq_refl true). Qed.
Lemma num_ok : forallb (run_at free field_pos "num_template(option_value, name, number)" true) (case_of "num.HasField('ignore_empty')" num_checks) = true.
Proof. vm_cast_no_check (eq_refl true). Qed.
Lemma num_bad : run_at free field_pos "num_template(option_value, name, number)" false
  ((bs "num.HasField('ignore_empty')", true) :: all_off (num_checks ++ [])) = true.
Proof. vm_cast_no_check (eq_refl true). Qed.

(** ** Members of oneofs *)
Lemma member_ok : forallb (run_at free member_pos "string_template(option_value, name)" true) [[(bs "s['ignore_empty']", false)]] = true.
Proof. vm_cast_no_check (eq_refl true). Qed.
Lemma member_bad : forallb (run_at free member_pos "string_template(option_value, name)" false) [[(bs "s['ignore_empty']", true)]] = true.
Proof. vm_cast_no_check (eq_refl true). Qed.
Lemma member_lines v s : written any_call "string_template(option_value, name)" v s ->
  python_lines (member_file s) = negb (holds v "s['ignore_empty']").
Proof.
  intros W. destruct (holds v "s['ignore_empty']") eqn:I; cbn [negb].
  - refine (member_cases free any_call any_covers _ false _ v s W _ member_bad). exists [(bs "s['ignore_empty']", true)].
    split; [now left|]. apply agrees_cons; [exact I | apply agrees_nil].
  - refine (member_cases free any_call any_covers _ true _ v s W _ member_ok). exists [(bs "s['ignore_empty']", false)].
    split; [now left|]. apply agrees_cons; [exact I | apply agrees_nil].
Qed.

(** ** Durations *)
Lemma dur_ok : forallb (run_at free field_pos "duration_template(option_value, name)" true) dur_cases = true.
Proof. vm_cast_no_check (eq_refl true). Qed.
(** There is a check, and an upper bound that is alone or not above the lower bound. *)
Definition dur_checked : list assume := firsts ["dur.HasField('const')"; "dur['in']"; "dur['not_in']"]%string.
Definition upper_cases : list assume :=
  [ [(has "lt", true); (has "gt", true); (over "lt" "gt", false)];
    [(has "lt", true); (has "gt", false); (has "gte", true); (over "lt" "gte", false)];
    [(has "lt", true); (has "gt", false); (has "gte", false)];
    [(has "lt", false); (has "lte", true); (has "gt", true); (over "lte" "gt", false)];
    [(has "lt", false); (has "lte", true); (has "gt", false); (has "gte", true); (over "lte" "gte", false)];
    [(has "lt", false); (has "lte", true); (has "gt", false); (has "gte", false)] ].
Definition glued_cases : list assume := flat_map (fun a => map (fun b => a ++ b) upper_cases) dur_checked.
Lemma dur_bad : forallb (run_at free field_pos "duration_template(option_value, name)" false) glued_cases = true.
Proof. vm_cast_no_check (eq_refl true). Qed.
Lemma glued_cover v : on_one_line v = true -> covered glued_cases v.
Proof.
  intros H.
  change (on_one_line v) with
    ((v (has "const") || v (bs "dur['in']") || v (bs "dur['not_in']")) &&
     (if v (has "lt") then negb (if v (has "gt") then v (has "gt") && v (over "lt" "gt") else v (has "gte") && v (over "lt" "gte"))
      else v (has "lte") && negb (if v (has "gt") then v (has "gt") && v (over "lte" "gt") else v (has "gte") && v (over "lte" "gte")))) in H.
  apply andb_true_iff in H. destruct H as [C U].
  assert (X : covered dur_checked v).
  { apply firsts_cover. apply existsb_checks. cbn [existsb]. rewrite orb_false_r.
    change (v (has "const") || (v (bs "dur['in']") || v (bs "dur['not_in']")) = true). now rewrite orb_assoc. }
  assert (Y : covered upper_cases v).
  { unfold covered, upper_cases. clear C X.
    destruct (v (has "lt")) eqn:L; [|destruct (v (has "lte")) eqn:L'; [|discriminate]];
      (destruct (v (has "gt")) eqn:G; cbn [andb] in U; [|destruct (v (has "gte")) eqn:G'; cbn [andb negb] in U]).
    - apply negb_true_iff in U. eexists. split; [now left | agree].
    - apply negb_true_iff in U. eexists. split; [right; now left | agree].
    - eexists. split; [do 2 right; now left | agree].
    - apply negb_true_iff in U. eexists. split; [do 3 right; now left | agree].
    - apply negb_true_iff in U. eexists. split; [do 4 right; now left | agree].
    - eexists. split; [do 5 right; now left | agree]. }
  destruct X as (a & IA & A), Y as (b & IB & B). exists (a ++ b). split; [|now apply agrees_app].
  apply in_flat_map. exists a. split; [exact IA|]. now apply (in_map (fun b => a ++ b)).
Qed.
Lemma duration_lines v s : written any_call "duration_template(option_value, name)" v s ->
  python_lines (field_file s) = negb (on_one_line v).
Proof.
  intros W. destruct (on_one_line v) eqn:O; cbn [negb].
  - exact (field_cases free any_call any_covers _ false _ v s W (glued_cover v O) dur_bad).
  - exact (field_cases free any_call any_covers _ true _ v s W (dur_cover v O) dur_ok).
Qed.

(** ** Strings with ignore_empty among items, keys and values *)
Definition inside_off : list string :=
  map (fun c => "str(accessor." ++ c ++ ")")%string
    ["float"; "double"; "int32"; "int64"; "uint32"; "uint64"; "sint32"; "sint64"; "fixed32"; "fixed64"; "sfixed32"; "sfixed64"; "bool"]%string.
Definition inside_case : assume := Eval vm_compute in (bs "str(accessor.string)", true) :: (bs "s['ignore_empty']", true) :: all_off inside_off.
Definition n_switcher : text := Eval vm_compute in name_of "switcher".
Definition inside_alts (e : text) : list assume := if text_eqb n_switcher (callee e) then [inside_case] else [[]].
Lemma off_in l v : (forall c, In c l -> v (bs c) = false) -> agrees (all_off l) v.
Proof. intros H s b I. apply in_map_iff in I. destruct I as (c & E & I). injection E as <- <-. now apply H. Qed.
Lemma inside_covers e t v : elements_ignore e t v -> parsed_at e = Some t /\ exists a, In a (inside_alts e) /\ agrees a v.
Proof.
  intros [T H]. split; [now rewrite <- parsed_same|]. unfold inside_alts. change (is "switcher" e) with (text_eqb n_switcher (callee e)) in H.
  destruct (text_eqb n_switcher (callee e)); [|apply all_covered]. destruct (H eq_refl) as (O & S & I).
  exists inside_case. split; [now left|].
  change (agrees ((bs "str(accessor.string)", true) :: (bs "s['ignore_empty']", true) :: all_off inside_off) v).
  apply agrees_cons; [exact S|]. apply agrees_cons; [exact I|]. apply off_in. intros c J. apply in_map_iff in J. destruct J as (x & <- & J). now apply O.
Qed.
Lemma items_bad : run_at inside_alts field_pos "repeated_template(option_value, name, field)" false [(bs "o and str(o.repeated['items'])", true)] = true.
Proof. vm_cast_no_check (eq_refl true). Qed.
Lemma items_lines v s : v (bs "o and str(o.repeated['items'])") = true ->
  written elements_ignore "repeated_template(option_value, name, field)" v s -> python_lines (field_file s) = false.
Proof.
  intros I W. refine (field_case inside_alts elements_ignore inside_covers _ false _ v s W _ items_bad).
  apply agrees_cons; [exact I | apply agrees_nil].
Qed.
Definition no_keys : list string :=
  map (fun c => "str(keys." ++ c ++ ")")%string
    ["double"; "int32"; "int64"; "uint32"; "uint64"; "sint32"; "sint64"; "fixed32"; "fixed64"; "sfixed32"; "sfixed64"; "bool"; "string"]%string.
Lemma values_bad : run_at inside_alts field_pos "map_template(option_value, name, field)" false
  ((bs "o and (str(o.map['keys']) or str(o.map['values']))", true) :: all_off no_keys) = true.
Proof. vm_cast_no_check (eq_refl true). Qed.
Lemma values_lines v s : v (bs "o and (str(o.map['keys']) or str(o.map['values']))") = true -> no_key_rules v ->
  written elements_ignore "map_template(option_value, name, field)" v s -> python_lines (field_file s) = false.
Proof.
  intros I K W. refine (field_case inside_alts elements_ignore inside_covers _ false _ v s W _ values_bad).
  apply agrees_cons; [exact I|]. apply off_in. intros c J. apply in_map_iff in J. destruct J as (x & <- & J). now apply K.
Qed.

Definition n_key : text := Eval vm_compute in bs "string_template(keys, 'key')|indent(4,True)".
Definition key_alts (e : text) : list assume := if text_eqb n_key e then [[(bs "s['ignore_empty']", true)]] else [[]].
Lemma key_covers e t v : keys_ignore e t v -> parsed_at e = Some t /\ exists a, In a (key_alts e) /\ agrees a v.
Proof.
  intros [T H]. split; [now rewrite <- parsed_same|]. unfold key_alts. destruct (text_eqb n_key e) eqn:E; [|apply all_covered].
  apply text_eqb_eq in E. exists [(bs "s['ignore_empty']", true)]. split; [now left|]. apply agrees_cons; [|apply agrees_nil]. apply H. now symmetry.
Qed.
Definition key_kinds : list string :=
  ["double"; "int32"; "int64"; "uint32"; "uint64"; "sint32"; "sint64"; "fixed32"; "fixed64"; "sfixed32"; "sfixed64"; "bool"]%string.
Definition key_case : assume :=
  (bs "o and (str(o.map['keys']) or str(o.map['values']))", true) :: (bs "str(keys.string)", true) ::
  all_off (map (fun c => "str(keys." ++ c ++ ")")%string key_kinds).
Lemma keys_bad : run_at key_alts field_pos "map_template(option_value, name, field)" false key_case = true.
Proof. vm_cast_no_check (eq_refl true). Qed.
Lemma keys_lines v s : v (bs "o and (str(o.map['keys']) or str(o.map['values']))") = true -> string_keys v ->
  written keys_ignore "map_template(option_value, name, field)" v s -> python_lines (field_file s) = false.
Proof.
  intros I [O S] W. refine (field_case key_alts keys_ignore key_covers _ false _ v s W _ keys_bad).
  apply agrees_cons; [exact I|]. apply agrees_cons; [exact S|]. apply off_in. intros c J. apply in_map_iff in J. destruct J as (x & <- & J). now apply O.
Qed.
