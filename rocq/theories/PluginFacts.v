(** Lemmas about runs of the plugin. *)
From Coq Require Import Permutation Lia.
From Verif Require Import Base Rules Types Checker Lit BaseFacts ExecMsg Plugin.

Lemma map_opt_none {A B} (f : A -> option B) l : map_opt f l = None <-> exists x, In x l /\ f x = None.
Proof.
  induction l as [|x l IH]; cbn; [split; [discriminate|intros (x & [] & _)]|].
  destruct (f x) eqn:E.
  - destruct (map_opt f l) eqn:M.
    + split; [discriminate|]. intros (y & [->|Hy] & N); [congruence|]. assert (X : Some l0 = None) by (apply IH; eauto). discriminate X.
    + split; auto. intros _. destruct (proj1 IH eq_refl) as (y & Hy & N). eauto.
  - split; eauto.
Qed.

Lemma forall2_map_opt {A B} (f : A -> option B) l l' : Forall2 (fun x y => f x = Some y) l l' -> map_opt f l = Some l'.
Proof. induction 1 as [|x y l l' E _ IH]; cbn; auto. now rewrite E, IH. Qed.

Lemma map_opt_perm {A B} (f : A -> option B) l l' : Permutation l l' ->
  match map_opt f l, map_opt f l' with
  | Some x, Some y => Permutation x y
  | None, None => True
  | _, _ => False
  end.
Proof.
  induction 1 as [|x l l' _ IH|x y l|l l1 l2 _ IH1 _ IH2]; cbn; auto.
  - destruct (f x); auto. destruct (map_opt f l), (map_opt f l'); auto.
  - destruct (f x), (f y), (map_opt f l); cbn; auto. constructor.
  - destruct (map_opt f l), (map_opt f l1), (map_opt f l2); try contradiction; auto. etransitivity; eauto.
Qed.

Lemma Forall2_in_both {A B} (R : A -> B -> Prop) l l' : Forall2 R l l' ->
  (forall x, In x l -> exists y, In y l' /\ R x y) /\ (forall y, In y l' -> exists x, In x l /\ R x y).
Proof.
  induction 1 as [|x y l l' H _ [I1 I2]]; [split; intros ? []|]. split.
  - intros z [->|Hz]; [exists y; cbn; auto|]. destruct (I1 z Hz) as (w & Hw & Q). exists w. cbn. auto.
  - intros z [->|Hz]; [exists x; cbn; auto|]. destruct (I2 z Hz) as (w & Hw & Q). exists w. cbn. auto.
Qed.

Section S.
Variables (set_ext join : bytes -> bytes -> bytes) (go_path class_file : pfile -> bytes) (class_msg : string -> bytes) (re_ok : bytes -> bool) (all : schema).
Notation check_file := (check_file re_ok all).
Notation execute := (execute set_ext join go_path class_file class_msg re_ok all).
Notation file_artifacts := (file_artifacts set_ext join go_path class_file class_msg).

Lemma check_file_none f : check_file f = None <-> exists m, In m (fl_top f ++ fl_nested f) /\ check_msg re_ok all m = None.
Proof using.
  unfold Plugin.check_file. destruct (map_opt _ (fl_top f)) eqn:T.
  - destruct (map_opt _ (fl_nested f)) eqn:N.
    + split; [discriminate|]. intros (m & Hm & E). apply in_app_iff in Hm. destruct Hm as [Hm|Hm].
      * assert (X : map_opt (check_msg re_ok all) (fl_top f) = None) by (apply map_opt_none; eauto). congruence.
      * assert (X : map_opt (check_msg re_ok all) (fl_nested f) = None) by (apply map_opt_none; eauto). congruence.
    + split; auto. intros _. apply map_opt_none in N. destruct N as (m & Hm & E). exists m. rewrite in_app_iff. auto.
  - split; auto. intros _. apply map_opt_none in T. destruct T as (m & Hm & E). exists m. rewrite in_app_iff. auto.
Qed.

Lemma templates_known lang : templates_of lang <> None <-> lang = bs "cc" \/ lang = bs "go" \/ lang = bs "java".
Proof using.
  unfold templates_of. destruct (bytes_eqb lang (bs "cc")) eqn:A; [apply bytes_eqb_eq in A; split; auto; discriminate|].
  destruct (bytes_eqb lang (bs "go")) eqn:B; [apply bytes_eqb_eq in B; split; auto; discriminate|].
  destruct (bytes_eqb lang (bs "java")) eqn:C; [apply bytes_eqb_eq in C; split; auto; discriminate|].
  split; [congruence|]. intros [ -> | [ -> | -> ] ]; vm_compute in A, B, C; discriminate.
Qed.

Lemma execute_none lang module files : execute lang module files = None <->
  ~ (lang = bs "cc" \/ lang = bs "go" \/ lang = bs "java") \/
  exists f m, In f files /\ In m (fl_top f ++ fl_nested f) /\ check_msg re_ok all m = None.
Proof using.
  rewrite <- templates_known. unfold Plugin.execute. destruct lang as [|c lang].
  - split; auto.
  - destruct (templates_of (c :: lang)) as [tpls|] eqn:T; [|split; auto; intros _; left; congruence].
    destruct (map_opt check_file files) eqn:M.
    + split; [discriminate|]. intros [H|(f & m & Hf & Hm & E)]; [exfalso; apply H; discriminate|].
      assert (X : map_opt check_file files = None); [|congruence]. apply map_opt_none. exists f. split; auto. apply check_file_none. eauto.
    + split; auto. intros _. right. apply map_opt_none in M. destruct M as (f & Hf & E). apply check_file_none in E. destruct E as (m & Hm & E). eauto.
Qed.

Lemma execute_some lang module files arts : execute lang module files = Some arts ->
  exists tpls fs, templates_of lang = Some tpls /\ Forall2 (fun f f' => check_file f = Some f') files fs /\
    arts = flat_map (file_artifacts lang module tpls) fs.
Proof using.
  unfold Plugin.execute. destruct lang as [|c lang]; [discriminate|]. destruct (templates_of _) as [tpls|]; [|discriminate].
  destruct (map_opt check_file files) as [fs|] eqn:M; [|discriminate]. intros [= <-]. apply map_opt_forall2 in M. eauto.
Qed.

Lemma execute_perm lang module files files' : Permutation files files' ->
  match execute lang module files, execute lang module files' with
  | Some x, Some y => Permutation x y
  | None, None => True
  | _, _ => False
  end.
Proof using.
  intros P. unfold Plugin.execute. destruct lang; auto. destruct (templates_of _); auto.
  assert (Q := map_opt_perm check_file _ _ P). destruct (map_opt check_file files), (map_opt check_file files'); auto.
  now apply Permutation_flat_map.
Qed.
End S.
