(** All states in which the lines of a rendered template can leave a reader. *)
From Verif Require Import Base Jinja PyLines.
Local Open Scope N_scope.

(** The reader behind filters, the innermost first: their width, and whether a line has just begun. *)
Definition filters := list (nat * bool).
(** A position in the source: the variables i of the templates being rendered, the innermost first. *)
Record pos := Pos { p_state : state; p_filters : filters; p_is : list nat }.

Definition last_is_nl (b : bool) (s : text) : bool := fold_left (fun _ c => c =? 10) s b.
Fixpoint put (st : state) (fs : filters) (s : text) : state * filters :=
  match fs with
  | [] => (reads st s, [])
  | (w, b) :: fs => let (st, fs) := put st fs (shift w b s) in (st, (w, last_is_nl b s) :: fs)
  end.
Definition write (s : text) (p : pos) : pos := let (st, fs) := put (p_state p) (p_filters p) s in Pos st fs (p_is p).
Definition current (p : pos) : nat := hd 0%nat (p_is p).
Definition set_i (i : nat) (p : pos) : pos := Pos (p_state p) (p_filters p) (i :: tl (p_is p)).
Definition push_i (i : nat) (p : pos) : pos := Pos (p_state p) (p_filters p) (i :: p_is p).
Definition pop_i (p : pos) : pos := Pos (p_state p) (p_filters p) (tl (p_is p)).
Definition enter (w : nat) (p : pos) : pos :=
  let p := write (spaces w) p in Pos (p_state p) ((w, false) :: p_filters p) (p_is p).
Definition leave_filter (p : pos) : pos := Pos (p_state p) (tl (p_filters p)) (p_is p).
Definition enter_call (w : option nat) (p : pos) : pos := push_i 0 (match w with Some w => enter w p | None => p end).
Definition leave_call (w : option nat) (p : pos) : pos := pop_i (match w with Some _ => leave_filter p | None => p end).

Definition pos_dec (a b : pos) : {a = b} + {a <> b}.
Proof. repeat decide equality. Defined.

(** What is known of conditions. *)
Definition assume := list (text * bool).
Fixpoint known (a : assume) (c : text) : option bool :=
  match a with [] => None | (s, b) :: a => if text_eqb s c then Some b else known a c end.
Definition agrees (a : assume) (v : env) : Prop := forall s b, In (s, b) a -> v s = b.

Section Reach.
Variable calls : text -> option (bool * option nat).
Variable template_at : text -> option tpl.
(** Every environment of a call agrees with one of these. *)
Variable alts : text -> list assume.

Definition both (x y : option (list pos)) : option (list pos) :=
  match x, y with Some x, Some y => Some (nodup pos_dec (x ++ y)) | _, _ => None end.
Definition on (f : list pos -> option (list pos)) (l : option (list pos)) : option (list pos) :=
  match l with Some l => f l | None => None end.
(** All positions after any number of rounds: those from which a round was tried, and the others. *)
Definition missing (l l' : list pos) : list pos := filter (fun p => if in_dec pos_dec p l then false else true) (nodup pos_dec l').
Fixpoint rounds (n : nat) (f : list pos -> option (list pos)) (tried l : list pos) : option (list pos) :=
  match l with
  | [] => Some tried
  | _ =>
      match n with
      | O => None
      | S n => match f l with Some l' => rounds n f (tried ++ l) (missing (tried ++ l) l') | None => None end
      end
  end.

Fixpoint reach (n : nat) : assume -> tpl -> list pos -> option (list pos) :=
  match n with
  | O => fun _ _ _ => None
  | S n =>
      fix go (a : assume) (t : tpl) (l : list pos) : option (list pos) :=
        match t with
        | End => Some l
        | Data s k => go a k (map (write s) l)
        | Set_i i k => go a k (map (set_i i) l)
        | Cond c x y k =>
            on (go a k) (match known a c with
                         | Some b => go a (if b then x else y) l
                         | None => both (go a x l) (go a y l)
                         end)
        | Filter b k => on (fun l => go a k (map leave_filter l)) (go a b (map (fun p => enter (current p) p) l))
        | Loop e b k =>
            on (go a k) (rounds 20 (fun l => option_map (map pop_i) (go [] b (map (fun p => push_i (current p) p) l))) [] l)
        | Out e k =>
            match calls e with
            | None => go a k (map (write value_text) l)
            | Some (same, w) =>
                match template_at e with
                | None => None
                | Some t' =>
                    let l := map (enter_call w) l in
                    let r := fold_right (fun a' r => both (reach n (if same then a' ++ a else a') t' l) r) (Some []) (alts e) in
                    on (fun l => go a k (map (leave_call w) l)) r
                end
            end
        end
  end.
End Reach.
