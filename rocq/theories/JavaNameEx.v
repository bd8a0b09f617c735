(** Files for the theorems on Java names. *)
From Coq Require Import Lia.
From Verif Require Import Base BaseFacts Lit JavaName JavaNameSpec JavaNameFacts JavaNameLookup.
Local Open Scope N_scope.

(** The names of the Go types, after CamelCase of protoc-gen-go: small letters become capital ones at the beginning, after digits
    and after underscores, which are dropped before small letters; the names on the way to a type are joined by underscores. *)
Fixpoint go_camel (cap : bool) (s : bytes) : bytes :=
  match s with
  | [] => []
  | c :: t =>
      if lowerb c then (if cap then c - 32 else c) :: go_camel false t
      else if c =? 95 then if head_is lowerb t then go_camel true t else 95 :: go_camel true t
      else c :: go_camel (digitb c) t
  end.
Definition go_name (p : path) : bytes :=
  match map (go_camel true) p with [] => [] | a :: l => a ++ flat_map (fun n => 95 :: n) l end.

Definition pgv : bytes := bs "validate/validate.proto".
Definition single (name : string) (l : list jmsg) : jfile := mkJFile (bs name) (bs "a.b") None [pgv] [] [] l.
Definition several (name : string) (l : list jmsg) : jfile := mkJFile (bs name) (bs "a.b") (Some (mkJOptions true None None)) [pgv] [] [] l.
Definition m0 (name : string) : jmsg := JMsg (bs name) false [] [].

(** ** Deciding the conditions *)
Fixpoint nodupb (l : list bytes) : bool := match l with [] => true | a :: l => negb (existsb (bytes_eqb a) l) && nodupb l end.
Lemma mem_bytes a l : existsb (bytes_eqb a) l = true <-> In a l.
Proof. rewrite existsb_exists. split; [intros (x & H & E); apply bytes_eqb_eq in E; now subst|intros H; exists a; split; auto; now apply bytes_eqb_eq]. Qed.
Lemma nodupb_sound l : nodupb l = true -> NoDup l.
Proof.
  induction l as [|a l IH]; intros H; constructor; cbn in H; apply andb_true_iff in H; destruct H as [H1 H2]; auto.
  intros J. apply mem_bytes in J. now rewrite J in H1.
Qed.
Definition path_eqb (p q : path) : bool := if list_eq_dec (list_eq_dec N.eq_dec) p q then true else false.
Fixpoint nodup_paths (l : list path) : bool := match l with [] => true | a :: l => negb (existsb (path_eqb a) l) && nodup_paths l end.
Lemma path_eqb_eq p q : path_eqb p q = true <-> p = q.
Proof. unfold path_eqb. destruct (list_eq_dec (list_eq_dec N.eq_dec) p q); split; auto; discriminate. Qed.
Lemma nodup_paths_sound l : nodup_paths l = true -> NoDup l.
Proof.
  induction l as [|a l IH]; intros H; constructor; cbn in H; apply andb_true_iff in H; destruct H as [H1 H2]; auto.
  intros J. apply negb_true_iff in H1. assert (existsb (path_eqb a) l = true) by (apply existsb_exists; exists a; split; auto; now apply path_eqb_eq). congruence.
Qed.
Definition properb (f : jfile) : bool :=
  nodup_paths (map fst (all_messages f)) && forallb (fun x => forallb identifier (fst x)) (all_messages f) && identifier (outer_class f).
Lemma properb_sound f : properb f = true -> proper f.
Proof.
  intros H. apply andb_true_iff in H. destruct H as [H H3]. apply andb_true_iff in H. destruct H as [H1 H2]. constructor; auto.
  - now apply nodup_paths_sound.
  - intros p n [i Hi] Hn. rewrite forallb_forall in H2. specialize (H2 _ Hi). rewrite forallb_forall in H2. now apply H2.
Qed.
Definition compilesb (f : jfile) (cs : list vclass) : bool :=
  forallb (fun c => negb (bytes_eqb (vc_package c) [])) cs && nodupb (map vc_name cs) &&
  forallb (fun c => nodupb (vc_name c :: map fst (vc_inner c))) cs &&
  forallb (fun c => forallb (fun x => existsb (bytes_eqb (fst x)) (map (fun y => message_class f (fst y)) (all_messages f))) (vc_cases c)) cs &&
  forallb (fun c => forallb (fun x => existsb (bytes_eqb (snd x)) (map fst (vc_inner c)) || (match vc_self c with Some _ => bytes_eqb (snd x) (vc_name c) | None => false end)) (vc_cases c)) cs.
Lemma compilesb_sound f cs : compilesb f cs = true -> compiles f cs.
Proof.
  unfold compilesb. intros H. repeat (apply andb_true_iff in H; destruct H as [H ?]). rename H3 into H', H2 into H2, H1 into H3, H0 into H4.
  rewrite forallb_forall in *. constructor.
  - intros c Hc E. specialize (H c Hc). now rewrite E in H.
  - now apply nodupb_sound.
  - intros c Hc. now apply nodupb_sound, H2.
  - intros c q s Hc Hq. specialize (H3 c Hc). rewrite forallb_forall in H3. specialize (H3 _ Hq). apply mem_bytes, in_map_iff in H3. destruct H3 as ([p i] & E & Hp).
    exists p. split; [exists i; auto|]. symmetry. exact E.
  - intros c q s Hc Hq. specialize (H4 c Hc). rewrite forallb_forall in H4. specialize (H4 _ Hq). apply orb_true_iff in H4. destruct H4 as [H4|H4].
    + left. now apply mem_bytes in H4.
    + right. destruct (vc_self c); [|discriminate]. apply bytes_eqb_eq in H4. split; [discriminate|auto].
Qed.
Definition distinctb (f : jfile) : bool :=
  let l := map fst (all_messages f) in forallb (fun p => forallb (fun q => negb (bytes_eqb (go_name p) (go_name q)) || path_eqb p q) l) l.
Lemma distinctb_sound f : distinctb f = true -> forall p q, has_message f p -> has_message f q -> go_name p = go_name q -> p = q.
Proof.
  unfold distinctb. intros H p q [i Hp] [j Hq] E. rewrite forallb_forall in H. apply (in_map fst) in Hp, Hq. specialize (H _ Hp). rewrite forallb_forall in H.
  specialize (H _ Hq). cbn [fst] in H. rewrite E in H. rewrite (proj2 (bytes_eqb_eq _ _) eq_refl) in H. now apply path_eqb_eq.
Qed.

(** A file of the harness, tests/harness/cases/filename-with-dash.proto, and a larger one. *)
Definition big : list jmsg :=
  [m0 "MessageNameWith_Underscore"; JMsg (bs "Outer") false [bs "Kind"] [m0 "Inner"; JMsg (bs "Off") true [] [m0 "Deep"]]; JMsg (bs "Gone") true [] []].
Definition one_file : jfile := single "tests/harness/cases/filename-with-dash_2x.proto" big.
Definition many_files : jfile := several "tests/harness/cases/filename-with-dash_2x.proto" big.
Lemma one_proper : proper one_file. Proof. apply properb_sound. vm_compute. reflexivity. Qed.
Lemma many_proper : proper many_files. Proof. apply properb_sound. vm_compute. reflexivity. Qed.
Lemma one_compiles : compiles one_file (classes go_name one_file). Proof. apply compilesb_sound. vm_compute. reflexivity. Qed.
Lemma many_compiles : compiles many_files (classes go_name many_files). Proof. apply compilesb_sound. vm_compute. reflexivity. Qed.

Definition small : jfile := several "x.proto" [m0 "foo"; m0 "Foo1bar"].
Lemma small_proper : proper small. Proof. apply properb_sound. vm_compute. reflexivity. Qed.
Lemma small_compiles : compiles small (classes go_name small). Proof. apply compilesb_sound. vm_compute. reflexivity. Qed.

Lemma no_contains s w : contains s w = false -> ~ (exists a b, s = a ++ w ++ b).
Proof. intros N H. assert (contains s w = true) by now apply contains_spec. congruence. Qed.
