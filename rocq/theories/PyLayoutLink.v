(** The sources that Py.v calls none are those that are no lines of Python. *)
From Verif Require Import Base Num Rules Regex Known Outcome Py Jinja PyLines PyLayout PyLayoutSpec PyRuleSpec PyLayoutCases.

Lemma duration_on v r : says v (duration_table r) -> on_one_line v = py_dur_glued r.
Proof.
  intros S.
  assert (Q : forall c b, In (c, b) (duration_table r) -> holds v c = b) by exact S.
  unfold on_one_line. cbv zeta. cbn [String.append].
  rewrite (Q "dur.HasField('const')"%string (is_some (d_const r))) by (cbn; tauto).
  rewrite (Q "dur['in']"%string (list_on (d_in r))) by (cbn; tauto).
  rewrite (Q "dur['not_in']"%string (list_on (d_not_in r))) by (cbn; tauto).
  rewrite (Q "dur.HasField('lt')"%string (is_some (d_lt r))) by (cbn; tauto).
  rewrite (Q "dur.HasField('lte')"%string (is_some (d_lte r))) by (cbn; tauto).
  rewrite (Q "dur.HasField('gt')"%string (is_some (d_gt r))) by (cbn; tauto).
  rewrite (Q "dur.HasField('gte')"%string (is_some (d_gte r))) by (cbn; tauto).
  rewrite (Q "dur_lit(dur['lt']) > dur_lit(dur['gt'])"%string (above (d_lt r) (d_gt r))) by (cbn; tauto).
  rewrite (Q "dur_lit(dur['lt']) > dur_lit(dur['gte'])"%string (above (d_lt r) (d_gte r))) by (cbn; tauto).
  rewrite (Q "dur_lit(dur['lte']) > dur_lit(dur['gt'])"%string (above (d_lte r) (d_gt r))) by (cbn; tauto).
  rewrite (Q "dur_lit(dur['lte']) > dur_lit(dur['gte'])"%string (above (d_lte r) (d_gte r))) by (cbn; tauto).
  unfold py_dur_glued, above. f_equal.
  - destruct (d_in r), (d_not_in r); reflexivity.
  - destruct (d_lt r), (d_lte r), (d_gt r), (d_gte r); cbn [is_some andb negb]; reflexivity.
Qed.

(** A source put together of parts: which of them write a statement. *)
Definition shape {A} (c : code A) (b : bool) : Prop := if b then exists s, c = Some [s] else c = Some [].
Definition no_code {A} (c : code A) : bool := match c with None => true | _ => false end.
Lemma seq_shape {A} (l : list (code A)) bl : Forall2 shape l bl ->
  exists x, seq l = Some x /\ is_nil x = negb (existsb (fun b => b) bl).
Proof.
  induction 1 as [|c b l bl H _ (x & E & N)]; [exists []; split; reflexivity|]. cbn [seq existsb]. rewrite E.
  destruct b; cbn [shape] in H.
  - destruct H as [s ->]. exists (s :: x). split; reflexivity.
  - rewrite H. exists x. split; [reflexivity | exact N].
Qed.
Lemma guarded_shape {A} (l : list (code A)) bl b cond : Forall2 shape l bl ->
  no_code (guarded b cond (seq l)) = b && negb (existsb (fun b => b) bl).
Proof.
  intros H. destruct (seq_shape l bl H) as (x & E & N). rewrite E, <- N. destruct b, x; reflexivity.
Qed.
Lemma shape_set {A B} (o : option B) (s : B -> A -> outcome) : shape (if_set o s) (is_some o).
Proof. destruct o; cbn; eauto. Qed.
Lemma shape_size {A} o (s : N -> A -> outcome) : shape (if_size o s) (size_on o).
Proof. destruct o as [n|]; cbn; [|reflexivity]. destruct (n =? 0)%N; cbn; eauto. Qed.
Lemma shape_text {A} o (s : bytes -> A -> outcome) : shape (if_text o s) (text_on o).
Proof. destruct o as [[|c t]|]; cbn; eauto. Qed.
Lemma shape_list {A B} (l : list B) (s : list B -> A -> outcome) : shape (if_list l s) (list_on l).
Proof. destruct l; cbn; eauto. Qed.


Lemma string_on pl v r : says v (string_table r) ->
  no_code (py_string pl r) = holds v "s['ignore_empty']" && negb (existsb (holds v) string_checks).
Proof.
  intros S.
  assert (Q : forall c b, In (c, b) (string_table r) -> holds v c = b) by exact S.
  unfold py_string.
  rewrite (guarded_shape _
    [is_some (s_const r); list_on (s_in r); list_on (s_not_in r); size_on (s_len r); size_on (s_min_len r); size_on (s_max_len r);
     size_on (s_len_bytes r); size_on (s_min_bytes r); size_on (s_max_bytes r); pattern_on r; text_on (s_prefix r); text_on (s_suffix r);
     text_on (s_contains r); text_on (s_not_contains r);
     match s_wk r with
     | Some (WEmail b | WHostname b | WIp b | WIpv4 b | WIpv6 b | WUri b | WUriRef b | WAddress b | WUuid b) => b
     | _ => false
     end]).
  2: { repeat (apply Forall2_cons; [first [apply shape_set | apply shape_list | apply shape_size | apply shape_text | idtac]|]); [| |apply Forall2_nil].
       - unfold py_pattern, pattern_on. destruct (s_wk r) as [[| | | | | | | | |[]]|]; try apply shape_text; eexists; reflexivity.
       - destruct (s_wk r) as [w|]; [|reflexivity]. destruct w as [[]|[]|[]|[]|[]|[]|[]|[]|[]|]; first [reflexivity | eexists; reflexivity]. }
  rewrite (Q "s['ignore_empty']"%string (getb (s_ignore_empty r))) by (cbn; tauto). f_equal. f_equal.
  unfold string_checks. cbn [existsb].
  assert (W : holds v "s['email']" || (holds v "s['hostname']" || (holds v "s['address']" || (holds v "s['ip']" || (holds v "s['ipv4']" ||
      (holds v "s['ipv6']" || (holds v "s['uri']" || (holds v "s['uri_ref']" || (holds v "s['uuid']" || false)))))))) =
    match s_wk r with
     | Some (WEmail b | WHostname b | WIp b | WIpv4 b | WIpv6 b | WUri b | WUriRef b | WAddress b | WUuid b) => b
     | _ => false
     end || false).
  { rewrite (Q "s['email']"%string _ ltac:(cbn; do 18 right; left; reflexivity)).
    rewrite (Q "s['hostname']"%string _ ltac:(cbn; do 19 right; left; reflexivity)).
    rewrite (Q "s['address']"%string _ ltac:(cbn; do 20 right; left; reflexivity)).
    rewrite (Q "s['ip']"%string _ ltac:(cbn; do 21 right; left; reflexivity)).
    rewrite (Q "s['ipv4']"%string _ ltac:(cbn; do 22 right; left; reflexivity)).
    rewrite (Q "s['ipv6']"%string _ ltac:(cbn; do 23 right; left; reflexivity)).
    rewrite (Q "s['uri']"%string _ ltac:(cbn; do 24 right; left; reflexivity)).
    rewrite (Q "s['uri_ref']"%string _ ltac:(cbn; do 25 right; left; reflexivity)).
    rewrite (Q "s['uuid']"%string _ ltac:(cbn; do 26 right; left; reflexivity)).
    destruct (s_wk r) as [w|]; [|reflexivity]. destruct w as [[]|[]|[]|[]|[]|[]|[]|[]|[]|]; reflexivity. }
  rewrite W.
  rewrite (Q "str(o.string) and o.string.HasField('const')"%string (is_some (s_const r))) by (cbn; tauto).
  rewrite (Q "value['in']"%string (list_on (s_in r))) by (cbn; tauto).
  rewrite (Q "value['not_in']"%string (list_on (s_not_in r))) by (cbn; tauto).
  rewrite (Q "s['len']"%string (size_on (s_len r))) by (cbn; tauto).
  rewrite (Q "s['min_len']"%string (size_on (s_min_len r))) by (cbn; tauto).
  rewrite (Q "s['max_len']"%string (size_on (s_max_len r))) by (cbn; tauto).
  rewrite (Q "s['len_bytes']"%string (size_on (s_len_bytes r))) by (cbn; tauto).
  rewrite (Q "s['min_bytes']"%string (size_on (s_min_bytes r))) by (cbn; tauto).
  rewrite (Q "s['max_bytes']"%string (size_on (s_max_bytes r))) by (cbn; tauto).
  rewrite (Q "s['pattern']"%string (pattern_on r)) by (cbn; tauto).
  rewrite (Q "s['prefix']"%string (text_on (s_prefix r))) by (cbn; tauto).
  rewrite (Q "s['suffix']"%string (text_on (s_suffix r))) by (cbn; tauto).
  rewrite (Q "s['contains']"%string (text_on (s_contains r))) by (cbn; tauto).
  rewrite (Q "s['not_contains']"%string (text_on (s_not_contains r))) by (cbn; tauto).
  reflexivity.
Qed.
Lemma bytes_on pl v r : says v (bytes_table r) ->
  no_code (py_bytes pl r) = holds v "b['ignore_empty']" && negb (existsb (holds v) bytes_checks).
Proof.
  intros S.
  assert (Q : forall c b, In (c, b) (bytes_table r) -> holds v c = b) by exact S.
  unfold py_bytes.
  rewrite (guarded_shape _
    [is_some (b_const r); list_on (b_in r); list_on (b_not_in r); size_on (b_len r); size_on (b_min_len r); size_on (b_max_len r);
     match b_wk r with Some (BIp b | BIpv4 b | BIpv6 b) => b | _ => false end;
     text_on (b_pattern r); text_on (b_contains r); text_on (b_prefix r); text_on (b_suffix r)]).
  2: { repeat (apply Forall2_cons; [first [apply shape_set | apply shape_list | apply shape_size | apply shape_text | idtac]|]); [|apply Forall2_nil].
       destruct (b_wk r) as [w|]; [|reflexivity]. destruct w as [[]|[]|[]]; first [reflexivity | eexists; reflexivity]. }
  rewrite (Q "b['ignore_empty']"%string (getb (b_ignore_empty r))) by (cbn; tauto). f_equal. f_equal.
  unfold bytes_checks. cbn [existsb].
  rewrite (Q "b['ip']"%string _ ltac:(cbn; do 10 right; left; reflexivity)).
  rewrite (Q "b['ipv4']"%string _ ltac:(cbn; do 11 right; left; reflexivity)).
  rewrite (Q "b['ipv6']"%string _ ltac:(cbn; do 12 right; left; reflexivity)).
  rewrite (Q "str(o.bytes) and o.bytes.HasField('const')"%string (is_some (b_const r))) by (cbn; tauto).
  rewrite (Q "value['in']"%string (list_on (b_in r))) by (cbn; tauto).
  rewrite (Q "value['not_in']"%string (list_on (b_not_in r))) by (cbn; tauto).
  rewrite (Q "b['len']"%string (size_on (b_len r))) by (cbn; tauto).
  rewrite (Q "b['min_len']"%string (size_on (b_min_len r))) by (cbn; tauto).
  rewrite (Q "b['max_len']"%string (size_on (b_max_len r))) by (cbn; tauto).
  rewrite (Q "b['pattern']"%string (text_on (b_pattern r))) by (cbn; tauto).
  rewrite (Q "b['prefix']"%string (text_on (b_prefix r))) by (cbn; tauto).
  rewrite (Q "b['suffix']"%string (text_on (b_suffix r))) by (cbn; tauto).
  rewrite (Q "b['contains']"%string (text_on (b_contains r))) by (cbn; tauto).
  do 6 (f_equal; []). destruct (b_wk r) as [w|]; [|reflexivity]. destruct w as [[]|[]|[]]; reflexivity.
Qed.
Lemma num_on v fl r : says v (num_table fl r) ->
  no_code (py_num r) = holds v "num.HasField('ignore_empty')" && negb (existsb (holds v) num_checks).
Proof.
  intros S.
  assert (Q : forall c b, In (c, b) (num_table fl r) -> holds v c = b) by exact S.
  unfold py_num.
  rewrite (guarded_shape _
    [is_some (n_const r); list_on (n_in r); list_on (n_not_in r); is_some (n_lt r) || is_some (n_lte r) || is_some (n_gt r) || is_some (n_gte r)]).
  2: { repeat (apply Forall2_cons; [first [apply shape_set | apply shape_list | idtac]|]); [|apply Forall2_nil].
       unfold py_bounds. destruct (n_lt r), (n_lte r), (n_gt r), (n_gte r); cbn [is_some orb shape];
         repeat match goal with |- context [if ?b then _ else _] => destruct b end; first [reflexivity | eexists; reflexivity]. }
  rewrite (Q "num.HasField('ignore_empty')"%string (is_some (n_ignore_empty r))) by (cbn; tauto). f_equal. f_equal.
  unfold num_checks. cbn [existsb].
  rewrite (Q "num.HasField('const') and str(o.float) == """""%string _ ltac:(cbn; do 1 right; left; reflexivity)).
  rewrite (Q "num.HasField('const') and str(o.float) != """""%string _ ltac:(cbn; do 2 right; left; reflexivity)).
  rewrite (Q "value['in']"%string (list_on (n_in r))) by (cbn; tauto).
  rewrite (Q "value['not_in']"%string (list_on (n_not_in r))) by (cbn; tauto).
  rewrite (Q "num.HasField('lt')"%string (is_some (n_lt r))) by (cbn; tauto).
  rewrite (Q "num.HasField('lte')"%string (is_some (n_lte r))) by (cbn; tauto).
  rewrite (Q "num.HasField('gt')"%string (is_some (n_gt r))) by (cbn; tauto).
  rewrite (Q "num.HasField('gte')"%string (is_some (n_gte r))) by (cbn; tauto).
  destruct (is_some (n_const r)), fl, (list_on (n_in r)), (list_on (n_not_in r)), (is_some (n_lt r)), (is_some (n_lte r)), (is_some (n_gt r)),
    (is_some (n_gte r)); reflexivity.
Qed.

Lemma string_lines pl v r s : says v (string_table r) -> written any_call "string_template(option_value, name)" v s ->
  python_lines (field_file s) = negb (no_code (py_string pl r)).
Proof.
  intros S W. rewrite (string_on pl v r S).
  apply (ignoring_lines _ _ _ string_others string_ok string_bad); [|exact W].
  assert (Q : forall c b, In (c, b) (string_table r) -> holds v c = b) by exact S.
  unfold string_others. cbn [existsb].
  rewrite (Q "str(o.bool) and o.bool['const'] != """""%string false) by (cbn; tauto).
  rewrite (Q "str(o.enum) and o.enum['const']"%string false) by (cbn; tauto).
  rewrite (Q "str(o.bytes) and o.bytes.HasField('const')"%string false) by (cbn; tauto). reflexivity.
Qed.
Lemma bytes_lines pl v r s : says v (bytes_table r) -> written any_call "bytes_template(option_value, name)" v s ->
  python_lines (field_file s) = negb (no_code (py_bytes pl r)).
Proof.
  intros S W. rewrite (bytes_on pl v r S).
  apply (ignoring_lines _ _ _ bytes_others bytes_ok bytes_bad); [|exact W].
  assert (Q : forall c b, In (c, b) (bytes_table r) -> holds v c = b) by exact S.
  unfold bytes_others. cbn [existsb].
  rewrite (Q "str(o.bool) and o.bool['const'] != """""%string false) by (cbn; tauto).
  rewrite (Q "str(o.enum) and o.enum['const']"%string false) by (cbn; tauto).
  rewrite (Q "str(o.string) and o.string.HasField('const')"%string false) by (cbn; tauto). reflexivity.
Qed.
Lemma num_lines v fl r s : says v (num_table fl r) -> written any_call "num_template(option_value, name, number)" v s ->
  python_lines (field_file s) = negb (no_code (py_num r)).
Proof.
  intros S W. rewrite (num_on v fl r S). exact (ignoring_lines _ _ _ [] num_ok num_bad v s eq_refl W).
Qed.
Lemma member_string_lines v r s : says v (string_table r) -> written any_call "string_template(option_value, name)" v s ->
  python_lines (member_file s) = negb (getb (s_ignore_empty r)).
Proof. intros S W. rewrite (member_lines v s W). f_equal. apply S. cbn. tauto. Qed.
Lemma dur_lines v r s : says v (duration_table r) -> written any_call "duration_template(option_value, name)" v s ->
  python_lines (field_file s) = negb (py_dur_glued r).
Proof. intros S W. now rewrite (duration_lines v s W), (duration_on v r S). Qed.
