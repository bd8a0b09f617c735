(** Sources, rendered. *)
From Verif Require Import Base Num Rules Regex Known Outcome Py Jinja PyTemplates PyLines PyLayout PyLayoutSpec PyRuleSpec PyReachFacts ErrTextFacts.

(** Rendering with the same answers everywhere, and [count e] rounds of a loop. *)
Section Exec.
Variables (v : env) (count : text -> nat) (okb : text -> bool).   (* the calls that are allowed *)
Fixpoint exec (n : nat) : tpl -> nat -> option (text * nat) :=
  match n with
  | O => fun _ _ => None
  | S n =>
      fix go t i :=
        match t with
        | End => Some ([], i)
        | Data s k => match go k i with Some (t, j) => Some (s ++ t, j) | None => None end
        | Set_i m k => go k m
        | Cond c a b k =>
            match go (if v c then a else b) i with
            | Some (s, j) => match go k j with Some (t, h) => Some (s ++ t, h) | None => None end
            | None => None
            end
        | Filter b k =>
            match go b i with
            | Some (s, j) => match go k j with Some (t, h) => Some (indent i s ++ t, h) | None => None end
            | None => None
            end
        | Loop e b k =>
            match go b i, go k i with
            | Some (s, _), Some (t, j) => Some (List.concat (repeat s (count e)) ++ t, j)
            | _, _ => None
            end
        | Out e k =>
            match calls e with
            | None => match go k i with Some (t, j) => Some (value_text ++ t, j) | None => None end
            | Some (_, w) =>
                match (if okb e then template_at e else None) with
                | Some t' =>
                    match exec n t' 0, go k i with
                    | Some (s, _), Some (t, j) => Some (filtered w s ++ t, j)
                    | _, _ => None
                    end
                | None => None
                end
            end
        end
  end.
Variable may : text -> tpl -> env -> Prop.
Hypothesis here : forall e t, okb e = true -> template_at e = Some t -> may e t v.
Lemma repeats_same b i s j n : renders calls may v b i s j -> repeats calls may b i (List.concat (repeat s n)).
Proof. intros R. induction n as [|n IH]; cbn; [constructor | now apply r_round with (v := v) (j := j)]. Qed.
Lemma exec_renders : forall n t i s j, exec n t i = Some (s, j) -> renders calls may v t i s j.
Proof.
  induction n as [|n IHn]; [discriminate|]. induction t as [|s k IH|e k IH|m k IH|c a IHa b IHb k IH|b IHb k IH|e b IHb k IH]; intros i x j E.
  - injection E as <- <-. constructor.
  - change (match exec (S n) k i with Some (t, j) => Some (s ++ t, j) | None => None end = Some (x, j)) in E.
    destruct (exec (S n) k i) as [[t h]|] eqn:F; [|discriminate]. injection E as <- <-. constructor. now apply IH.
  - change (match calls e with
            | None => match exec (S n) k i with Some (t, j) => Some (value_text ++ t, j) | None => None end
            | Some (_, w) =>
                match (if okb e then template_at e else None) with
                | Some t' => match exec n t' 0, exec (S n) k i with Some (s, _), Some (t, j) => Some (filtered w s ++ t, j) | _, _ => None end
                | None => None
                end
            end = Some (x, j)) in E.
    destruct (calls e) as [[same w]|] eqn:C.
    + destruct (okb e) eqn:O; [|discriminate]. destruct (template_at e) as [t'|] eqn:T; [|discriminate]. destruct (exec n t' 0) as [[s h]|] eqn:F; [|discriminate].
      destruct (exec (S n) k i) as [[t h']|] eqn:G; [|discriminate]. injection E as <- <-.
      apply (r_call calls may v e same w t' v s h k i t h' C); [now apply here | reflexivity | now apply IHn | now apply IH].
    + destruct (exec (S n) k i) as [[t h]|] eqn:F; [|discriminate]. injection E as <- <-. constructor; [exact C | now apply IH].
  - constructor. now apply IH.
  - change (match exec (S n) (if v c then a else b) i with
            | Some (s, j) => match exec (S n) k j with Some (t, h) => Some (s ++ t, h) | None => None end
            | None => None end = Some (x, j)) in E.
    destruct (exec (S n) (if v c then a else b) i) as [[s h]|] eqn:F; [|discriminate].
    destruct (exec (S n) k h) as [[t h']|] eqn:G; [|discriminate]. injection E as <- <-.
    apply r_cond with (j := h); [|now apply IH]. destruct (v c); [now apply IHa | now apply IHb].
  - change (match exec (S n) b i with
            | Some (s, j) => match exec (S n) k j with Some (t, h) => Some (indent i s ++ t, h) | None => None end
            | None => None end = Some (x, j)) in E.
    destruct (exec (S n) b i) as [[s h]|] eqn:F; [|discriminate].
    destruct (exec (S n) k h) as [[t h']|] eqn:G; [|discriminate]. injection E as <- <-.
    apply r_filter with (j := h); [now apply IHb | now apply IH].
  - change (match exec (S n) b i, exec (S n) k i with
            | Some (s, _), Some (t, j) => Some (List.concat (repeat s (count e)) ++ t, j) | _, _ => None end = Some (x, j)) in E.
    destruct (exec (S n) b i) as [[s h]|] eqn:F; [|discriminate].
    destruct (exec (S n) k i) as [[t h']|] eqn:G; [|discriminate]. injection E as <- <-.
    constructor; [|now apply IH]. apply (repeats_same b i s h). now apply IHb.
Qed.
End Exec.

Definition env_of (l : table) (c : text) : bool :=
  match find (fun p => text_eqb (bs (fst p)) c) l with Some (_, b) => b | None => false end.
Definition source (l : table) (okb : text -> bool) (e : string) : option text :=
  match template_at (bs e) with
  | Some t => match exec (env_of l) (fun _ => 0) okb 6 t 0 with Some (s, _) => Some s | None => None end
  | None => None
  end.
Lemma source_written (may : text -> tpl -> env -> Prop) l okb e s :
  (forall e t, okb e = true -> template_at e = Some t -> may e t (env_of l)) -> source l okb e = Some s -> written may e (env_of l) s.
Proof.
  intros M E. unfold source in E. destruct (template_at (bs e)) as [t|] eqn:T; [|discriminate].
  destruct (exec (env_of l) _ okb 6 t 0) as [[x j]|] eqn:X; [|discriminate]. injection E as <-. exists t, j.
  split; [exact T | exact (exec_renders _ _ okb may M _ _ _ _ _ X)].
Qed.
Definition all_calls (e : text) : bool := true.
Lemma source_any l e s : source l all_calls e = Some s -> written any_call e (env_of l) s.
Proof. apply source_written. intros x t _ T. exact T. Qed.
Lemma env_says l : NoDup (map fst l) -> says (env_of l) l.
Proof.
  intros N c b. unfold env_of. induction l as [|[x y] l IH]; [easy|]. cbn [map fst] in N. inversion N as [|? ? X N']; subst. intros [I | I].
  - injection I as -> ->. cbn [find fst]. now rewrite text_eqb_refl.
  - cbn [find fst]. destruct (text_eqb (bs x) (bs c)) eqn:E; [|now apply IH]. apply text_eqb_eq in E. exfalso. apply X.
    apply bs_inj in E. subst x. apply (in_map fst) in I. exact I.
Qed.

(** A message type with a string field of some length, and with another in a oneof that is required. *)
Definition ex_table : table :=
  [("string", true); ("s['min_len']", true); ("not field.containing_oneof", true); ("option[0].name == 'required' and option[1]", true)]%string.
Definition ex_count (e : text) : nat :=
  if text_eqb (bs "option_descriptor, option_value in p.DESCRIPTOR.GetOptions().ListFields()") e then 0
  else if text_eqb (bs "field in p.DESCRIPTOR.fields") e then 2 else 1.
Definition ex_calls (e : text) : bool :=
  one_of [bs "rule_type"; bs "string_template"; bs "const_template"; bs "in_template"] (up_to 40 e) && negb (in_wrapper e).
Lemma ex_laid e t : ex_calls e = true -> template_at e = Some t -> laid_call e t (env_of ex_table).
Proof.
  intros C T. split; [exact T|]. unfold ex_calls in C. apply andb_true_iff in C. destruct C as [C W]. apply negb_true_iff in W.
  unfold laid, is, callee. rewrite W.
  assert (X : In (up_to 40 e) [bs "rule_type"; bs "string_template"; bs "const_template"; bs "in_template"]).
  { clear -C. generalize dependent (up_to 40 e). intros w C. cbn [one_of] in C.
    assert (S : forall a b, same a b = true -> a = b).
    { induction a as [|x a IH]; intros [|y b] H; cbn in H; try discriminate; [reflexivity|].
      destruct (x =? y)%N eqn:E; [|discriminate]. apply N.eqb_eq in E. subst. f_equal. now apply IH. }
    repeat match type of C with (if ?c then _ else _) = true => destruct c eqn:?; [clear C | ] end; try discriminate;
      match goal with H : same ?a w = true |- _ => apply S in H; rewrite <- H end; cbn [In]; tauto. }
  destruct X as [<- | [<- | [<- | [<- | []]]]]; vm_compute; try exact I. discriminate.
Qed.
Definition ex_source : text :=
  bs "
# Validates x
def generate_validate(p):
    present = False
    if _has_field(p, ""x""):
        present = True
            
        
        if len(x) < x:
            raise ValidationFailed(""x length is less than x"")
        
        
        
    if not present:
        raise ValidationFailed(""Oneof x is required"")
        
        
    
    
    if len(x) < x:
        raise ValidationFailed(""x length is less than x"")
    
    
    
    if len(x) < x:
        raise ValidationFailed(""x length is less than x"")
    
    return None".
