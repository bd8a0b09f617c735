(** Spec.v and Meaning.v admit the same messages, for schemas the plugin accepts. *)
From Coq Require Import Lia Floats.SpecFloat.
From Verif Require Import Base Utf8 Num Rules Types Time Iface Checker Spec Meaning BaseFacts Utf8Facts NumFacts TimeFacts
  ExecFacts ExecMsg Main ValidSame.

Notation holds l := (Forall rq_holds l).

Lemma h_one p r : holds [want p r] <-> p.
Proof. rewrite Forall_cons_iff. cbn. intuition. Qed.
Lemma h_one_c p r : holds [want_c p r] <-> p.
Proof. rewrite Forall_cons_iff. cbn. intuition. Qed.
Lemma h_when {A} (o : option A) q : holds (when o q) <-> forall a, o = Some a -> rq_holds (q a).
Proof.
  destruct o; cbn; [rewrite Forall_cons_iff|]; split; auto; try discriminate.
  - intros [H _] b [= <-]. exact H.
Qed.
Lemma h_when_ne o q : holds (when_ne o q) <-> forall a, o = Some a -> a <> [] -> rq_holds (q a).
Proof.
  destruct o as [[|x t]|]; cbn; [|rewrite Forall_cons_iff|]; split; try congruence; auto.
  - intros [H _] a [= <-] _. exact H.
  - intros H. split; auto. apply H; auto. discriminate.
Qed.
Lemma h_whenb b l : holds (whenb b l) <-> (b = true -> holds l).
Proof. destruct b; cbn; intuition; try discriminate. Qed.
Lemma h_nil : holds [] <-> True.
Proof. split; auto. Qed.
Lemma getb_true o : getb o = true <-> o = Some true.
Proof. destruct o as [[]|]; cbn; split; congruence. Qed.

Lemma ins_excl {A} (l nl : list A) : check_ins (List.length l) (List.length nl) = true -> l = [] \/ nl = [].
Proof. unfold check_ins. destruct l, nl; cbn; auto; discriminate. Qed.

Lemma listed_nil {A} (eq : A -> Prop) : listed eq [] [] <-> True.
Proof. unfold listed. rewrite !Exists_nil. intuition. Qed.
Lemma h_in {A} (eq : A -> Prop) l nl pr : check_ins (List.length l) (List.length nl) = true ->
  holds (in_reqs eq l nl pr) <-> listed eq l nl.
Proof.
  intros C. apply ins_excl in C. unfold in_reqs, listed. destruct l as [|x t].
  - destruct nl as [|y u]; [rewrite !Exists_nil; intuition|]. rewrite h_one. intuition.
  - destruct C as [C| ->]; [discriminate|]. rewrite h_one. rewrite (Exists_nil eq). split; [auto|]. intros [H _]. apply H. discriminate.
Qed.

(** The checks on a count with three bounds. *)
Lemma h_len count c u l mn mx : (forall n, count n <-> c = n) -> check_len l mn mx = true ->
  holds (len_reqs count u l mn mx) <->
  (forall n, l = Some n -> count n) /\ (forall n, mn = Some n -> exists k, count k /\ (n <= k)%N) /\
  (forall n, mx = Some n -> exists k, count k /\ (k <= n)%N).
Proof.
  intros Hc C. destruct l as [n|].
  - destruct mn, mx; try discriminate. cbn [len_reqs]. rewrite h_one. split; [intros H; repeat split; intros ? [= <-]; auto|intros [H _]; auto].
  - assert (E : forall P : N -> Prop, (exists k, count k /\ P k) <-> P c).
    { intros P. split; [intros (k & K & H); apply Hc in K; congruence|intros H; exists c; split; auto; now apply Hc]. }
    destruct mn as [a|], mx as [b|]; cbn [len_reqs].
    + destruct (N.eqb_spec a b) as [->|Hne]; rewrite h_one.
      * rewrite Hc. split.
        -- intros ->. repeat split; intros ? [= <-]; exists b; split; try (now apply Hc); lia.
        -- intros (_ & H1 & H2). specialize (H1 b eq_refl). specialize (H2 b eq_refl).
           apply (E (fun k => b <= k)%N) in H1. apply (E (fun k => k <= b)%N) in H2. lia.
      * rewrite (E (fun k => a <= k <= b)%N). split.
        -- intros H. repeat split; intros ? [= <-]; exists c; split; try (now apply Hc); lia.
        -- intros (_ & H1 & H2). specialize (H1 a eq_refl). specialize (H2 b eq_refl).
           apply (E (fun k => a <= k)%N) in H1. apply (E (fun k => k <= b)%N) in H2. lia.
    + rewrite h_one. split; [intros H; repeat split; intros ? [= <-]; auto|intros (_ & H & _); auto].
    + rewrite h_one. split; [intros H; repeat split; intros ? [= <-]; auto|intros (_ & _ & H); auto].
    + rewrite h_nil. split; auto. intros _. repeat split; discriminate.
Qed.

Lemma num_zero_b_spec v : num_zero_b v = true <-> nzero v.
Proof.
  unfold num_zero_b, nzero. destruct v as [z|f].
  - destruct z; split; try discriminate; auto; intros [H|[s H]]; discriminate.
  - destruct f; split; try discriminate; eauto; intros [H|[b H]]; discriminate.
Qed.

(** [ignore_empty]. *)
Lemma h_ignore (o : option bool) (b : bool) (E : Prop) l P : (b = true <-> E) -> (holds l <-> P) ->
  holds (if getb o && b then [] else l) <-> (o = Some true /\ E) \/ P.
Proof.
  intros HE HP. destruct (getb o) eqn:G; cbn [andb].
  - apply getb_true in G. destruct b.
    + rewrite h_nil. intuition.
    + rewrite HP. split; [auto|]. intros [[_ H]|H]; auto. apply HE in H. discriminate.
  - rewrite HP. split; [auto|]. intros [[-> _]|H]; auto. discriminate.
Qed.

Lemma h_range {T} lt eq up lo (v : T) rs (Q : Prop) : (up = None -> lo = None -> Q) ->
  (within_range lt eq up lo v -> Q) ->
  holds (match up, lo with None, None => [] | _, _ => [want Q rs] end) <-> Q.
Proof. intros A B. destruct up, lo; rewrite ?h_one, ?h_nil; intuition. Qed.

Lemma num_meant r v : check_num r = true -> holds (num_reqs r v) <-> num_meaning r v.
Proof.
  intros C. unfold num_reqs, num_meaning. apply h_ignore; [apply num_zero_b_spec|].
  rewrite !Forall_app, h_when. apply and_iff_compat_l.
  unfold check_num, check_nums in C. repeat rewrite andb_true_iff in C. destruct C as [[[[[C _] _] _] _] _].
  rewrite h_in by exact C. apply and_iff_compat_r.
  eapply (h_range nlt neq _ _ v); auto. intros -> ->. right. exact I.
Qed.

Lemma h_starts s p : (p <> [] -> starts_with s p) <-> starts_with s p.
Proof. split; auto. intros H. destruct p; [exists s; reflexivity|apply H; discriminate]. Qed.
Lemma h_ends s p : (p <> [] -> ends_with s p) <-> ends_with s p.
Proof. split; auto. intros H. destruct p; [exists s; symmetry; apply app_nil_r|apply H; discriminate]. Qed.
Lemma h_inside s p : (p <> [] -> has_inside s p) <-> has_inside s p.
Proof. split; auto. intros H. destruct p; [exists s, []; symmetry; apply app_nil_r|apply H; discriminate]. Qed.

Section M.
Variable re_ok : bytes -> bool.
Variable orc : oracles.
Variable sc : schema.

Lemma wk_meant w s : holds (wk_reqs orc w s) <->
  (forall x, w = Some x -> (forall k', x <> WRegex k') -> format_meaning orc x true s).
Proof.
  split.
  - intros H x -> N. destruct x as [[]|[]|[]|[]|[]|[]|[]|[]|[]|k]; cbn [wk_reqs format_meaning] in *;
      try discriminate; rewrite ?Forall_cons_iff in H; cbn [rq_holds want want_c] in H; try tauto.
    + destruct H as (A & B & _). destruct (o_url orc s) as [[]|]; congruence.
    + exfalso. eapply N. reflexivity.
  - intros H. destruct w as [x|]; [|constructor]. specialize (H x eq_refl).
    destruct x as [[]|[]|[]|[]|[]|[]|[]|[]|[]|k]; cbn [wk_reqs format_meaning] in *; rewrite ?Forall_cons_iff; cbn [rq_holds want want_c];
      auto; try (split; [apply H; [discriminate|reflexivity]|constructor]).
    assert (K : o_url orc s = Some true) by (apply H; [discriminate|reflexivity]). rewrite K. repeat split; auto; discriminate.
Qed.

Lemma string_checked r r' : check_string re_ok r = Some r' ->
  check_len (s_len r) (s_min_len r) (s_max_len r) = true /\
  check_len (s_len_bytes r) (s_min_bytes r) (s_max_bytes r) = true /\
  check_ins (List.length (s_in r)) (List.length (s_not_in r)) = true /\
  (s_pattern r = None \/ get_wkr r = KRUnknown).
Proof.
  unfold check_string, guard. destruct (_ && _) eqn:E; [|discriminate]. rewrite !andb_true_iff in E.
  destruct E as [[[[A B] _] _] C]. destruct (check_wkr r) eqn:W; [|discriminate]. intros _. repeat split; auto.
  unfold check_wkr, guard in W. destruct (get_wkr r); auto; destruct (s_pattern r); auto; discriminate.
Qed.

Lemma str_meant r r' s : check_string re_ok r = Some r' -> holds (str_reqs orc r s) <-> str_meaning orc r s.
Proof.
  intros C. apply string_checked in C. destruct C as (C1 & C2 & C3 & C4).
  unfold str_reqs, str_meaning. apply h_ignore; [apply is_nil_true|].
  rewrite !Forall_app, !h_when, (h_in _ _ _ _ C3).
  rewrite (h_len _ _ _ _ _ _ (fun n => iff_trans (chars_count_iff s n) (conj (fun x => x) (fun x => x))) C1).
  rewrite (h_len (bytes_count s) (N.of_nat (List.length s)) _ _ _ _ (fun n => conj (fun x => x) (fun x => x)) C2).
  cbn [rq_holds want].
  assert (F : holds (wk_reqs orc (s_wk r) s) /\ holds (regex_reqs orc r s) <->
    (forall p, s_pattern r = Some p -> o_match orc p s = true) /\
    (forall w, s_wk r = Some w -> format_meaning orc w (match s_strict r with Some b => b | None => true end) s)).
  { unfold regex_reqs. assert (W := wk_meant (s_wk r) s).
    assert (B : (match s_strict r with Some false => false | _ => true end) = (match s_strict r with Some b => b | None => true end))
      by (destruct (s_strict r) as [[]|]; reflexivity).
    rewrite B. clear B. set (st := match s_strict r with Some b => b | None => true end).
    assert (I : forall w, (forall k', w <> WRegex k') -> format_meaning orc w st s <-> format_meaning orc w true s).
    { intros w N. destruct w; cbn; try tauto. exfalso. eapply N; reflexivity. }
    destruct (s_pattern r) as [p|].
    - rewrite h_one. destruct C4 as [|C4]; [discriminate|]. split.
      + intros [H1 H2]. split; [intros ? [= <-]; auto|]. intros w Ew. destruct w as [| | | | | | | | |k];
          try (apply I; [discriminate|]; apply (proj1 W); [auto|auto|discriminate]).
        unfold get_wkr in C4. rewrite Ew in C4. subst k. exact Logic.I.
      + intros [H1 H2]. split; auto. apply W. intros x Ex N. apply I; auto.
    - split.
      + intros [H1 H2]. split; [discriminate|]. intros w Ew. destruct w as [| | | | | | | | |k];
          try (apply I; [discriminate|]; apply (proj1 W); [auto|auto|discriminate]).
        rewrite Ew in H2. destruct k; try exact Logic.I; rewrite h_one in H2; exact H2.
      + intros [_ H2]. split.
        * apply W. intros x Ex N. apply I; auto.
        * destruct (s_wk r) as [[| | | | | | | | |[]]|]; try constructor; try constructor; apply (H2 _ eq_refl). }
  rewrite F. tauto.
Qed.

Lemma byt_meant r s : check_bytes re_ok r = true -> holds (byt_reqs orc r s) <-> byt_meaning orc r s.
Proof.
  intros C. unfold check_bytes in C. rewrite !andb_true_iff in C. destruct C as [[[_ C] _] _].
  unfold byt_reqs, byt_meaning. apply h_ignore; [apply is_nil_true|].
  rewrite !Forall_app, !h_when_ne, h_when, (h_in _ _ _ _ C). cbn [rq_holds want].
  assert (L : holds (len_reqs (bytes_count s) "bytes" (b_len r) (b_min_len r) (b_max_len r)) <->
    (forall n, b_len r = Some n -> bytes_count s n) /\
    (forall n, b_len r = None -> b_min_len r = Some n -> exists k, bytes_count s k /\ (n <= k)%N) /\
    (forall n, b_len r = None -> b_max_len r = Some n -> exists k, bytes_count s k /\ (k <= n)%N)).
  { destruct (b_len r) as [n|] eqn:E.
    - cbn [len_reqs]. rewrite h_one. split; [intros H; repeat split; try discriminate; intros ? [= <-]; auto|intros [H _]; auto].
    - rewrite (h_len (bytes_count s) (N.of_nat (List.length s)) _ None _ _ (fun n => conj (fun x => x) (fun x => x)) eq_refl).
      intuition (try discriminate); eauto. }
  rewrite L.
  assert (A1 : (forall a, b_prefix r = Some a -> a <> [] -> starts_with s a) <-> (forall p, b_prefix r = Some p -> starts_with s p)).
  { split; intros H p E; specialize (H p E); [exact (proj1 (h_starts s p) H)|auto]. }
  assert (A2 : (forall a, b_suffix r = Some a -> a <> [] -> ends_with s a) <-> (forall p, b_suffix r = Some p -> ends_with s p)).
  { split; intros H p E; specialize (H p E); [exact (proj1 (h_ends s p) H)|auto]. }
  assert (A3 : (forall a, b_contains r = Some a -> a <> [] -> has_inside s a) <-> (forall p, b_contains r = Some p -> has_inside s p)).
  { split; intros H p E; specialize (H p E); [exact (proj1 (h_inside s p) H)|auto]. }
  rewrite A1, A2, A3.
  assert (W : holds (match b_wk r with
       | Some (BIp true) => [want (ip_bytes s) [PStr "value must be a valid IP address"]]
       | Some (BIpv4 true) => [want (ip4_bytes s) [PStr "value must be a valid IPv4 address"]]
       | Some (BIpv6 true) => [want (ip_bytes s /\ ~ ip4_bytes s) [PStr "value must be a valid IPv6 address"]]
       | _ => [] end) <->
     (b_wk r = Some (BIp true) -> ip_bytes s) /\ (b_wk r = Some (BIpv4 true) -> ip4_bytes s) /\
     (b_wk r = Some (BIpv6 true) -> ip_bytes s /\ ~ ip4_bytes s)).
  { destruct (b_wk r) as [[[]|[]|[]]|]; rewrite ?h_one, ?h_nil; intuition congruence. }
  rewrite W. tauto.
Qed.

Lemma enum_meant vals e r z : check_enum vals r = true -> holds (enum_reqs sc e r z) <-> enum_meaning sc e r z.
Proof.
  intros C. unfold check_enum in C. rewrite andb_true_iff in C. destruct C as [C _].
  unfold enum_reqs, enum_meaning. rewrite !Forall_app, h_when, h_whenb, h_one, (h_in _ _ _ _ C), getb_true. tauto.
Qed.

Lemma h_required {A} b (o : option A) : holds (required_reqs b o) <-> (b = Some true -> o <> None).
Proof. unfold required_reqs. rewrite h_whenb, h_one, getb_true. tauto. Qed.

Lemma listed_In {A} (x : A) l nl : listed (fun y => x = y) l nl <-> (l <> [] -> In x l) /\ ~ In x nl.
Proof.
  unfold listed.
  assert (E : forall l, Exists (fun y => x = y) l <-> In x l).
  { intros k. rewrite Exists_exists. split; [intros (y & Hy & ->); auto|eauto]. }
  now rewrite !E.
Qed.

Lemma any_meant r o : check_any r = true -> holds (any_reqs r o) <-> any_meaning r o.
Proof.
  intros C. unfold check_any in C. unfold any_reqs, any_meaning. rewrite Forall_app, h_required. apply and_iff_compat_l.
  destruct o as [url|]; [|rewrite h_nil; intuition discriminate].
  assert (K : holds (match a_in r, a_not_in r with
         | (_ :: _) as l, _ => [want (In url l) [PStr "type URL must be in list "; PTexts l]]
         | [], (_ :: _) as l => [want (~ In url l) [PStr "type URL must not be in list "; PTexts l]]
         | [], [] => []
         end) <-> listed (fun x => url = x) (a_in r) (a_not_in r)).
  { rewrite listed_In. apply ins_excl in C. destruct (a_in r) as [|x t].
    - destruct (a_not_in r); rewrite ?h_one, ?h_nil; intuition.
    - destruct C as [C|C]; [discriminate|]. rewrite C, h_one. split; [auto|]. intros [H _]. apply H. discriminate. }
  rewrite K. split; [intros H u [= <-]; auto|auto].
Qed.

Lemma h_guarded (V : Prop) rs l : holds (match l with [] => [] | _ => want_c V rs :: l end) <-> (l <> [] -> V /\ holds l).
Proof.
  destruct l as [|x t]; [rewrite h_nil; intuition congruence|]. rewrite Forall_cons_iff. cbn [rq_holds want_c].
  split; [auto|]. intros H. apply H. discriminate.
Qed.

Lemma dur_meant r o : check_duration r = true -> holds (dur_reqs r o) <-> dur_meaning r o.
Proof.
  intros C. unfold check_duration in C. rewrite !andb_true_iff in C. destruct C as [[[_ C] _] _].
  unfold check_nums in C. repeat rewrite andb_true_iff in C. destruct C as [[[[[C _] _] _] _] _].
  unfold dur_reqs, dur_meaning. rewrite Forall_app, h_required. apply and_iff_compat_l.
  destruct o as [d|]; [|rewrite h_nil; intuition discriminate]. cbv zeta. rewrite h_guarded.
  match goal with |- context [?a ++ ?b ++ ?c <> []] => set (l1 := a); set (l2 := b); set (l3 := c) end.
  assert (NE : l1 ++ l2 ++ l3 <> [] <-> dur_constrained r).
  { unfold dur_constrained, l1, l2, l3. clear.
    destruct (d_const r), (d_lt r), (d_lte r), (d_gt r), (d_gte r), (d_in r), (d_not_in r); cbn; split; intros H; try discriminate;
      try (exfalso; intuition congruence; fail);
      first [left; discriminate | right; left; discriminate | do 2 right; left; discriminate | do 3 right; left; discriminate
            | do 4 right; left; discriminate | do 5 right; left; discriminate | do 6 right; discriminate]. }
  assert (L : valid_duration d -> holds (l1 ++ l2 ++ l3) <->
    (forall c, d_const r = Some c -> go_duration d = go_duration c) /\
     within_range (fun a b => (go_duration a < go_duration b)%Z) (fun a b => go_duration a = go_duration b)
       (bnd (d_lt r) (d_lte r)) (bnd (d_gt r) (d_gte r)) d /\
     listed (fun x => go_duration d = go_duration x) (d_in r) (d_not_in r)).
  { intros V. rewrite !Forall_app. unfold l1, l2, l3. rewrite h_when. cbn [rq_holds want]. clear l1 l2 l3 NE.
    assert (A1 : (forall a, d_const r = Some a -> valid_duration d -> go_duration d = go_duration a) <->
                 (forall c, d_const r = Some c -> go_duration d = go_duration c)) by (split; auto). rewrite A1.
    apply and_iff_compat_l.
    assert (A2 : forall up lo rs, holds (match up, lo with None, None => [] | _, _ =>
        [want (valid_duration d -> within_range (fun a b => (go_duration a < go_duration b)%Z) (fun a b => go_duration a = go_duration b) up lo d) rs] end) <->
        within_range (fun a b => (go_duration a < go_duration b)%Z) (fun a b => go_duration a = go_duration b) up lo d).
    { intros up lo rs. destruct up, lo; rewrite ?h_one, ?h_nil; try tauto. }
    rewrite A2. apply and_iff_compat_l. apply ins_excl in C. unfold listed.
    destruct (d_in r) as [|x t].
    - destruct (d_not_in r); rewrite ?h_one, ?h_nil, ?Exists_nil; intuition.
    - destruct C as [C|C]; [discriminate|]. rewrite C, h_one. split; [|intros [H _] _; apply H; discriminate]. intros H. split; auto. rewrite Exists_nil. auto. }
  split.
  - intros H d' [= <-] Hc. apply NE in Hc. destruct (H Hc) as [V Hl]. split; auto. apply L in Hl; auto.
  - intros H Hc. apply NE in Hc. destruct (H d eq_refl Hc) as [V Hl]. split; auto. now apply L.
Qed.

Lemma ts_meant r o : check_timestamp r = true -> holds (ts_reqs orc r o) <-> ts_meaning orc r o.
Proof.
  intros C. unfold check_timestamp in C. rewrite !andb_true_iff in C.
  destruct C as [[[[_ C1] C2] C3] _].
  unfold ts_reqs, ts_meaning. rewrite Forall_app, h_required. apply and_iff_compat_l.
  destruct o as [t|]; [|rewrite h_nil; intuition discriminate]. cbv zeta. rewrite h_guarded.
  match goal with |- context [?a ++ ?b <> []] => set (l1 := a); set (l2 := b) end.
  assert (NE : l1 ++ l2 <> [] <-> ts_constrained r).
  { unfold ts_constrained, l1, l2, now_reqs. clear - C1 C2 C3.
    destruct (t_const r), (t_lt r), (t_lte r), (t_gt r), (t_gte r), (t_lt_now r), (t_gt_now r), (t_within r); cbn in C1, C2, C3;
      try discriminate; cbn; split; intros H; try discriminate;
      try (exfalso; intuition congruence; fail);
      first [left; discriminate | right; left; discriminate | do 2 right; left; discriminate | do 3 right; left; discriminate
            | do 4 right; left; discriminate | do 5 right; left; discriminate | do 6 right; left; discriminate | do 7 right; discriminate]. }
  assert (L : valid_timestamp t -> holds (l1 ++ l2) <->
    (forall c, t_const r = Some c -> nanos t = nanos c) /\
     within_range (fun a b => (nanos a < nanos b)%Z) (fun a b => nanos a = nanos b)
       (bnd (t_lt r) (t_lte r)) (bnd (t_gt r) (t_gte r)) t /\
     (t_lt_now r <> None -> (nanos t < o_now orc)%Z) /\
     (t_gt_now r <> None -> (o_now orc < nanos t)%Z) /\
     (forall w, t_within r = Some w ->
        match t_lt_now r, t_gt_now r with
        | None, None => (Z.abs (nanos t - o_now orc) < nanos w)%Z
        | _, _ => (Z.abs (nanos t - o_now orc) <= nanos w)%Z
        end)).
  { intros V. rewrite Forall_app. unfold l1, l2. rewrite h_when. cbn [rq_holds want]. clear l1 l2 NE.
    assert (A1 : (forall a, t_const r = Some a -> valid_timestamp t -> nanos t = nanos a) <->
                 (forall c, t_const r = Some c -> nanos t = nanos c)) by (split; auto). rewrite A1.
    apply and_iff_compat_l.
    destruct (bnd (t_lt r) (t_lte r)) as [u|] eqn:Eu, (bnd (t_gt r) (t_gte r)) as [l|] eqn:El.
    4:{ cbn [within_range]. unfold now_reqs. clear C1 C2.
        destruct (t_lt_now r), (t_gt_now r), (t_within r) as [w|]; try discriminate; rewrite ?h_one, ?h_nil; clear C3.
        all: split; [intros H|intros (_ & H1 & H2 & H3)].
        all: try specialize (H V).
        all: try (repeat split; try congruence; try (intros; lia); intros ? [= <-]; lia).
        all: try (intros _; specialize (H3 _ eq_refl)).
        all: try (assert (N1 : Some b <> None) by discriminate; specialize (H1 N1)).
        all: try (assert (N2 : Some b <> None) by discriminate; specialize (H2 N2)).
        all: try lia.
        all: auto. }
    all: assert (N : t_lt_now r = None /\ t_gt_now r = None /\ t_within r = None) by
       (destruct (t_lt r), (t_lte r), (t_gt r), (t_gte r), (t_lt_now r), (t_gt_now r), (t_within r); try discriminate; auto).
    all: destruct N as (-> & -> & ->); rewrite h_one; intuition discriminate. }
  split.
  - intros H d' [= <-] Hc. apply NE in Hc. destruct (H Hc) as [V Hl]. split; auto. apply L in Hl; auto.
  - intros H Hc. apply NE in Hc. destruct (H t eq_refl Hc) as [V Hl]. split; auto. now apply L.
Qed.
End M.

Notation th l := (Forall t_holds l).
Notation T := (fun (_ : string) (_ : msgval) => True).

Section W.
Variable re_ok : bytes -> bool.
Variable orc : oracles.
Variable sc : schema.

Lemma rule_meant c mr r fr' e v : check_fr re_ok sc c (FR mr (Some r)) = Some fr' ->
  holds (rule_reqs orc sc e r v) <-> rule_meaning orc sc e r v.
Proof.
  intros C. destruct r; cbn [check_fr] in C; unfold guard in C; destruct v; cbn [rule_reqs rule_meaning]; try (rewrite h_nil; tauto).
  - destruct (_ && _) eqn:E; [|discriminate]. apply andb_true_iff in E. apply num_meant. tauto.
  - unfold bool_reqs. rewrite h_when. reflexivity.
  - destruct (must_type_c _ _); [|discriminate]. destruct (check_string _ _) eqn:E; [|discriminate]. eapply str_meant; eauto.
  - destruct (_ && _) eqn:E; [|discriminate]. apply andb_true_iff in E. apply (byt_meant re_ok). tauto.
  - destruct (_ && _) eqn:E; [|discriminate]. apply andb_true_iff in E. eapply enum_meant. apply E.
  - destruct (check_any r) eqn:E; [|discriminate]. now apply any_meant.
  - destruct (check_duration r) eqn:E; [|discriminate]. now apply dur_meant.
  - destruct (check_timestamp r) eqn:E; [|discriminate]. now apply ts_meant.
Qed.

Lemma elem_meant c fr fr' e v : check_fr re_ok sc c fr = Some fr' ->
  holds (elem_reqs orc sc T e fr v) <-> elem_meaning orc sc e fr v.
Proof.
  intros C. destruct fr as [mr [r|]]; cbn [elem_reqs elem_meaning].
  - assert (K := fun e v => rule_meant _ _ _ _ e v C).
    destruct e; try apply K. destruct v as [| | | | | |[x|]| | | | |]; try apply K.
    rewrite h_whenb, h_one. destruct (required mr); intuition.
  - destruct (is_embed e); [|rewrite h_nil; intuition discriminate].
    unfold message_reqs. rewrite Forall_app, h_whenb, h_one.
    assert (K : forall l, l = whenb (negb (skipped mr)) (match e, v with
        | TMsg n, VMsg (Some m) => whenb (validated_type sc n) [mkReq True [PStr "embedded message failed validation"] (Embedded n m)]
        | _, _ => [] end) -> holds l).
    { intros l ->. apply h_whenb. intros _. destruct e; try constructor. destruct v as [| | | | |[m0|]| | | | | |]; try constructor.
      apply h_whenb. intros _. repeat constructor. }
    specialize (K _ eq_refl). cbn in K |- *. tauto.
Qed.

Lemma count_meant n mn mx a b : holds (count_reqs n mn mx a b) <-> count_meaning n mn mx.
Proof.
  unfold count_reqs, count_meaning. destruct mn as [x|], mx as [y|].
  - destruct (N.eqb_spec x 0) as [->|H0]; [|destruct (N.eqb_spec x y) as [->|H1]]; rewrite h_one.
    + split; [intros H; split; intros ? [= <-]; lia|intros [_ H]; auto].
    + split; [intros ->; split; intros ? [= <-]; lia|intros [H1 H2]]. specialize (H1 _ eq_refl). specialize (H2 _ eq_refl). lia.
    + split; [intros H; split; intros ? [= <-]; lia|intros [A B]]. specialize (A _ eq_refl). specialize (B _ eq_refl). lia.
  - destruct (N.eqb_spec x 0) as [->|H0]; rewrite ?h_one, ?h_nil.
    + split; auto. intros _. split; [intros ? [= <-]; lia|discriminate].
    + split; [intros H; split; [intros ? [= <-]; lia|discriminate]|intros [H _]; auto].
  - rewrite h_one. split; [intros H; split; [discriminate|intros ? [= <-]; lia]|intros [_ H]; auto].
  - rewrite h_nil. split; auto. intros _. split; discriminate.
Qed.

Lemma items_meant e u fr l : forall ea i,
  th (items_reqs orc sc T e u fr ea i l) <->
  (u = true -> forall j y, nth_error l j = Some y -> ~ Exists (same_item y) (ea ++ firstn j l)) /\
  (forall x, In x l -> holds (elem_reqs orc sc T e fr x)).
Proof.
  induction l as [|x t IH]; intros ea i; cbn [items_reqs].
  - split; [|constructor]. intros _. split; [|contradiction]. intros _ [|j] y; discriminate.
  - rewrite Forall_app, tag_holds, Forall_app, h_whenb, h_one, IH. split.
    + intros [[A B] [C D]]. split.
      * intros U [|j] y; cbn [nth_error firstn].
        -- intros [= <-]. rewrite app_nil_r. auto.
        -- intros Hy. specialize (C U j y Hy). rewrite <- app_assoc in C. exact C.
      * intros y [<-|Hy]; auto.
    + intros [A B]. split; [split|split].
      * intros U. specialize (A U 0 x eq_refl). cbn in A. now rewrite app_nil_r in A.
      * apply B. left; auto.
      * intros U j y Hy. specialize (A U (S j) y Hy). rewrite <- app_assoc. exact A.
      * intros y Hy. apply B. right; auto.
Qed.

Lemma nth_error_firstn {A} (l : list A) : forall j i, nth_error (firstn j l) i = if i <? j then nth_error l i else None.
Proof.
  induction l as [|x t IH]; intros [|j] [|i]; cbn [firstn nth_error]; auto.
  - destruct (S i <? S j); reflexivity.
  - rewrite IH. reflexivity.
Qed.

Lemma firstn_pairs (R : value -> value -> Prop) l :
  (forall j y, nth_error l j = Some y -> ~ Exists (R y) (firstn j l)) <->
  (forall i j x y, i < j -> nth_error l i = Some x -> nth_error l j = Some y -> ~ R y x).
Proof.
  split.
  - intros H i j x y L Hi Hj Rxy. apply (H j y Hj). apply Exists_exists. exists x. split; auto.
    apply nth_error_In with i. rewrite nth_error_firstn. apply Nat.ltb_lt in L. now rewrite L.
  - intros H j y Hj E. apply Exists_exists in E. destruct E as (x & Hx & Rx). apply In_nth_error in Hx. destruct Hx as [i Hi].
    assert (L : i < j). { assert (i < List.length (firstn j l)) by (apply nth_error_Some; congruence). rewrite firstn_length in H0. lia. }
    rewrite nth_error_firstn in Hi. apply Nat.ltb_lt in L. rewrite L in Hi. apply Nat.ltb_lt in L. eapply H; eauto.
Qed.

Lemma th_ignore (o : option bool) (b : bool) (E : Prop) l P : (b = true <-> E) -> (th l <-> P) ->
  th (if getb o && b then [] else l) <-> (o = Some true /\ E) \/ P.
Proof.
  intros HE HP. destruct (getb o) eqn:G; cbn [andb].
  - apply getb_true in G. destruct b.
    + split; [intros _; left; intuition|constructor].
    + rewrite HP. split; [auto|]. intros [[_ H]|H]; auto. apply HE in H. discriminate.
  - rewrite HP. split; [auto|]. intros [[-> _]|H]; auto. discriminate.
Qed.

Lemma rep_meant e r l c fr' : check_fr re_ok sc c (rules_or_none (r_items r)) = Some fr' ->
  th (rep_reqs orc sc T e r l) <-> rep_meaning orc sc e r l.
Proof.
  intros C. unfold rep_reqs, rep_meaning. apply th_ignore; [apply is_nil_true|].
  rewrite Forall_app, tag_holds, count_meant, items_meant, getb_true. apply and_iff_compat_l. cbn [app].
  rewrite (firstn_pairs same_item). apply and_iff_compat_l.
  split; intros H x Hx; specialize (H x Hx); eapply elem_meant; eauto.
Qed.

Lemma map_meant k v r l c1 c2 fr1 fr2 : check_fr re_ok sc c1 (rules_or_none (p_keys r)) = Some fr1 ->
  check_fr re_ok sc c2 (rules_or_none (p_values r)) = Some fr2 ->
  th (map_reqs orc sc T k v r l) <-> map_meaning orc sc k v r l.
Proof.
  intros C1 C2. unfold map_reqs, map_meaning. apply th_ignore; [apply is_nil_true|].
  rewrite Forall_app, tag_holds, count_meant. apply and_iff_compat_l.
  rewrite Forall_flat_map, Forall_forall. split.
  - intros H. split.
    + intros N x y Hxy. specialize (H _ Hxy). rewrite tag_holds, Forall_app, h_whenb, h_one, getb_true in H. cbn in H. tauto.
    + intros x y Hxy. specialize (H _ Hxy). rewrite tag_holds, !Forall_app in H. cbn in H.
      rewrite (elem_meant _ _ _ k x C1), (elem_meant _ _ _ v y C2) in H. tauto.
  - intros [A B] [x y] Hxy. rewrite tag_holds, !Forall_app, h_whenb, h_one, getb_true. cbn [fst snd].
    rewrite (elem_meant _ _ _ k x C1), (elem_meant _ _ _ v y C2). split; eauto.
Qed.

Lemma check_items m r fr' c : check_fr re_ok sc c (FR m (Some (RRepeated r))) = Some fr' ->
  exists c' x, check_fr re_ok sc c' (rules_or_none (r_items r)) = Some x.
Proof.
  cbn [check_fr]. destruct c as [[e|e|k v]|e]; try discriminate. unfold guard. destruct (_ && _); [|discriminate].
  destruct r as [mn mx u [it|] ie]; [|exists (CElem e); eexists; reflexivity].
  destruct (check_fr re_ok sc (CElem e) it) eqn:E; [|discriminate]. intros _. cbn. eauto.
Qed.
Lemma check_entries m r fr' c : check_fr re_ok sc c (FR m (Some (RMap r))) = Some fr' ->
  (exists c' x, check_fr re_ok sc c' (rules_or_none (p_keys r)) = Some x) /\
  (exists c' x, check_fr re_ok sc c' (rules_or_none (p_values r)) = Some x).
Proof.
  cbn [check_fr]. destruct c as [[e|e|k v]|e]; try discriminate. unfold guard. destruct (_ && _); [|discriminate].
  destruct r as [mn mx ns ks vs ie]. cbn [p_keys p_values].
  destruct ks as [ks|], vs as [vs|]; cbn [rules_or_none].
  - destruct (check_fr re_ok sc (CElem k) ks) eqn:E1; [|discriminate]. destruct (check_fr re_ok sc (CElem v) vs) eqn:E2; [|discriminate]. intros _. split; eauto.
  - destruct (check_fr re_ok sc (CElem k) ks) eqn:E1; [|discriminate]. intros _. split; [eauto|]. exists (CElem v). eexists. reflexivity.
  - destruct (check_fr re_ok sc (CElem v) vs) eqn:E1; [|discriminate]. intros _. split; [|eauto]. exists (CElem v). eexists. reflexivity.
  - intros _. split; exists (CElem v); eexists; reflexivity.
Qed.

Lemma field_meant f f' v : check_field re_ok sc f = Some f' ->
  th (field_reqs orc sc T f v) <-> field_meaning orc sc f v.
Proof.
  unfold check_field, guard. destruct (check_message _ _); [|discriminate]. destruct (check_fr _ _ _ _) as [fr'|] eqn:C; [|discriminate].
  intros _. unfold field_reqs, field_meaning, rep_of, map_of. destruct (f_type f) as [e|e|k w].
  - rewrite tag_holds. eapply elem_meant; eauto.
  - destruct v; try (split; [auto|constructor]; fail). destruct (f_rules f) as [m [r|]]; cbn [fr_typ]; [destruct r|];
      try (eapply (rep_meant e _ l (CElem e)); reflexivity).
    destruct (check_items _ _ _ _ C) as (c & x & H). eapply rep_meant; eauto.
  - destruct v; try (split; [auto|constructor]; fail). destruct (f_rules f) as [m [r|]]; cbn [fr_typ]; [destruct r|];
      try (eapply (map_meant k w _ l (CElem k) (CElem k)); reflexivity).
    destruct (check_entries _ _ _ _ C) as ((c & x & H) & (c' & x' & H')). eapply map_meant; eauto.
Qed.

(** Embedded messages. *)
Lemma elem_embeds_iff e fr v n m :
  (exists r, In r (elem_reqs orc sc T e fr v) /\ rq_cause r = Embedded n m) <-> elem_embeds sc e fr v n m.
Proof.
  unfold elem_embeds. destruct fr as [mr [r|]]; cbn [elem_reqs fr_typ fr_msg].
  - split; [|intuition discriminate]. intros (q & Hq & E). exfalso.
    assert (K : forall l, Forall not_emb l -> In q l -> False) by (intros l F I; eapply not_emb_in; eauto).
    destruct e; try (eapply K; [apply rule_not_emb|exact Hq]).
    destruct v as [| | | | | |[x|]| | | | |]; try (eapply K; [apply rule_not_emb|exact Hq]).
    eapply K; [|exact Hq]. apply ne_whenb. repeat constructor.
  - destruct e; cbn [is_embed]; try (split; [intros (q & [] & _)|intuition discriminate]);
      unfold message_reqs.
    all: split.
    all: try (intros (q & Hq & E); apply in_app_iff in Hq; destruct Hq as [Hq|Hq];
        [destruct (required mr); [destruct Hq as [<-|[]]; discriminate|contradiction]|]).
    all: try (destruct (skipped mr) eqn:S; cbn in Hq; contradiction).
    all: try (intuition discriminate).
    + destruct (skipped mr) eqn:S; cbn [negb whenb] in Hq; [contradiction|].
      destruct v as [| | | | |[mv|]| | | | | |]; try contradiction. destruct (validated_type sc m0) eqn:V; [|contradiction].
      destruct Hq as [<-|[]]. cbn in E. injection E as <- <-. auto.
    + intros (E1 & -> & _ & S & V). injection E1 as ->. rewrite S, V. cbn [negb whenb]. eexists. split; [apply in_app_iff; right; left; reflexivity|reflexivity].
Qed.

Definition has_emb (l : list (option ixval * req)) n m := exists ix r, In (ix, r) l /\ rq_cause r = Embedded n m.

Lemma has_emb_tag ix l n m : has_emb (tag ix l) n m <-> exists r, In r l /\ rq_cause r = Embedded n m.
Proof.
  unfold has_emb, tag. split.
  - intros (i & r & H & E). apply in_map_iff in H. destruct H as (q & [= <- <-] & H). eauto.
  - intros (r & H & E). exists ix, r. split; auto. apply in_map_iff. eauto.
Qed.
Lemma has_emb_app a b n m : has_emb (a ++ b) n m <-> has_emb a n m \/ has_emb b n m.
Proof.
  unfold has_emb. split.
  - intros (i & r & H & E). apply in_app_iff in H. destruct H; eauto 6.
  - intros [(i & r & H & E)|(i & r & H & E)]; exists i, r; rewrite in_app_iff; auto.
Qed.
Lemma has_emb_none l n m : Forall not_emb l -> ~ exists r, In r l /\ rq_cause r = Embedded n m.
Proof. intros F (r & H & E). eapply not_emb_in; eauto. Qed.
Lemma exists_app {A} (P : A -> Prop) a b : (exists x, In x (a ++ b) /\ P x) <-> (exists x, In x a /\ P x) \/ (exists x, In x b /\ P x).
Proof.
  split.
  - intros (x & H & Hx). apply in_app_iff in H. destruct H; eauto.
  - intros [(x & H & Hx)|(x & H & Hx)]; exists x; rewrite in_app_iff; auto.
Qed.

Lemma items_embeds e u fr l n m : forall ea i,
  has_emb (items_reqs orc sc T e u fr ea i l) n m <-> exists x, In x l /\ elem_embeds sc e fr x n m.
Proof.
  induction l as [|x t IH]; intros ea i; cbn [items_reqs].
  - split; [intros (a & b & [] & _)|intros (x & [] & _)].
  - rewrite has_emb_app, has_emb_tag, exists_app, IH, elem_embeds_iff.
    assert (N := has_emb_none (whenb u [want (~ Exists (same_item x) ea) [PStr "repeated value must contain unique items"]]) n m).
    assert (F : Forall not_emb (whenb u [want (~ Exists (same_item x) ea) [PStr "repeated value must contain unique items"]]))
      by (apply ne_whenb; repeat constructor). specialize (N F). split.
    + intros [[H|H]|(y & H & E)]; [contradiction|exists x; split; [left|]; auto|exists y; split; [right|]; auto].
    + intros (y & [<-|H] & E); eauto.
Qed.

Lemma field_embeds_iff f v n m : has_emb (field_reqs orc sc T f v) n m <-> field_embeds sc f v n m.
Proof.
  assert (No : has_emb [] n m <-> False) by (split; [intros (a & b & [] & _)|contradiction]).
  unfold field_reqs, field_embeds. destruct (f_type f) as [e|e|k w].
  - rewrite has_emb_tag. apply elem_embeds_iff.
  - destruct v; try exact No.
    assert (R : forall r, has_emb (rep_reqs orc sc T e r l) n m <-> exists x, In x l /\ elem_embeds sc e (rules_or_none (r_items r)) x n m).
    { intros r. unfold rep_reqs. destruct (getb _ && is_nil l) eqn:E.
      - apply andb_true_iff in E. destruct E as [_ E]. apply is_nil_true in E. subst. rewrite No. split; [contradiction|intros (x & [] & _)].
      - rewrite has_emb_app, has_emb_tag, items_embeds. assert (N := has_emb_none _ n m (count_not_emb (N.of_nat (List.length l)) (r_min r) (r_max r) " item(s)" " items, inclusive")). tauto. }
    unfold rep_of. destruct (fr_typ (f_rules f)) as [[]|]; apply R.
  - destruct v; try exact No.
    assert (R : forall r, has_emb (map_reqs orc sc T k w r l) n m <-> exists x y, In (x, y) l /\
       (elem_embeds sc k (rules_or_none (p_keys r)) x n m \/ elem_embeds sc w (rules_or_none (p_values r)) y n m)).
    { intros r. unfold map_reqs. destruct (getb _ && is_nil l) eqn:E.
      - apply andb_true_iff in E. destruct E as [_ E]. apply is_nil_true in E. subst. rewrite No. split; [contradiction|intros (x & y & [] & _)].
      - rewrite has_emb_app, has_emb_tag. assert (N := has_emb_none _ n m (count_not_emb (N.of_nat (List.length l)) (p_min r) (p_max r) " pair(s)" " pairs, inclusive")).
        assert (K : has_emb (flat_map (fun p => tag (Some (IxV (fst p)))
           (whenb (getb (p_no_sparse r)) [want (is_set (snd p)) [PStr "value cannot be sparse, all pairs must be non-nil"]]
            ++ elem_reqs orc sc T k (rules_or_none (p_keys r)) (fst p)
            ++ elem_reqs orc sc T w (rules_or_none (p_values r)) (snd p))) l) n m <-> exists x y, In (x, y) l /\
       (elem_embeds sc k (rules_or_none (p_keys r)) x n m \/ elem_embeds sc w (rules_or_none (p_values r)) y n m)).
        { clear - orc. induction l as [|[x y] t IH]; cbn [flat_map].
          - split; [intros (a & b & [] & _)|intros (x & y & [] & _)].
          - rewrite has_emb_app, has_emb_tag, !exists_app, IH, !elem_embeds_iff. cbn [fst snd].
            assert (F : Forall not_emb (whenb (getb (p_no_sparse r)) [want (is_set y) [PStr "value cannot be sparse, all pairs must be non-nil"]]))
              by (apply ne_whenb; repeat constructor). assert (N := has_emb_none _ n m F). split.
            + intros [[H|H]|(x' & y' & H & E)]; [contradiction|exists x, y; split; [left|]; auto|exists x', y'; split; [right|]; auto].
            + intros (x' & y' & [[= <- <-]|H] & E); [auto|right; eauto]. }
        rewrite K. tauto. }
    unfold map_of. destruct (fr_typ (f_rules f)) as [[]|]; apply R.
Qed.

Lemma find_field o f : NoDup (map f_name (o_fields o)) -> In f (o_fields o) ->
  find (fun g => String.eqb (f_name f) (f_name g)) (o_fields o) = Some f.
Proof.
  induction (o_fields o) as [|g t IH]; intros N I; [contradiction|]. cbn in N. apply NoDup_cons_iff in N. destruct N as [N1 N2].
  cbn. destruct (String.eqb_spec (f_name f) (f_name g)) as [E|E].
  - destruct I as [<-|I]; auto. exfalso. apply N1. rewrite <- E. now apply in_map.
  - destruct I as [->|I]; [congruence|auto].
Qed.

Lemma nodup_flat {A B} (f : A -> list B) l x : NoDup (flat_map f l) -> In x l -> NoDup (f x).
Proof.
  induction l as [|a t IH]; intros N I; [contradiction|]. cbn in N. destruct I as [->|I].
  - clear IH. induction (f x) as [|y u IHu]; [constructor|]. cbn in N. apply NoDup_cons_iff in N. destruct N as [N1 N2]. constructor; auto.
    intros H. apply N1. apply in_app_iff. auto.
  - apply IH; auto. clear - N. induction (f a) as [|y u IHu]; auto. cbn in N. apply NoDup_cons_iff in N. tauto.
Qed.

Lemma nodup_app_r {A} (a b : list A) : NoDup (a ++ b) -> NoDup b.
Proof. induction a; cbn; auto. intros N. apply NoDup_cons_iff in N. tauto. Qed.

Lemma oneof_nodup d o : NoDup (map f_name (all_fields d)) -> In o (md_oneofs d) -> NoDup (map f_name (o_fields o)).
Proof.
  unfold all_fields. rewrite map_app. intros N I. apply nodup_app_r in N.
  rewrite flat_map_concat_map, concat_map, map_map, <- flat_map_concat_map in N.
  exact (nodup_flat _ _ _ N I).
Qed.

Lemma msg_meant d d' m : md_disabled d = false -> check_msg re_ok sc d = Some d' -> NoDup (map f_name (all_fields d)) ->
  (forall f ix r, In (f, (ix, r)) (own_reqs orc sc d m) -> rq_holds r) <-> msg_meaning orc sc d m.
Proof.
  intros Hd C ND. unfold check_msg in C. rewrite Hd in C.
  destruct (map_opt (check_field re_ok sc) (md_fields d)) eqn:E1; [|discriminate].
  destruct (map_opt (check_oneof re_ok sc) (md_oneofs d)) eqn:E2; [|discriminate]. clear C.
  apply map_opt_forall2 in E1, E2.
  assert (F1 : forall f, In f (md_fields d) -> exists f', check_field re_ok sc f = Some f').
  { clear - E1. induction E1; [contradiction|]. intros f [<-|H1]; eauto. }
  assert (F2 : forall o f, In o (md_oneofs d) -> In f (o_fields o) -> exists f', check_field re_ok sc f = Some f').
  { clear - E2. induction E2 as [|o o' t t' H _ IH]; [contradiction|]. intros o1 f [<-|H1] Hf; [|eauto].
    unfold check_oneof in H. destruct (map_opt _ (o_fields o)) eqn:E; [|discriminate]. apply map_opt_forall2 in E.
    clear - E Hf. induction E; [contradiction|]. destruct Hf as [<-|]; eauto. }
  clear E1 E2. unfold own_reqs, msg_reqs, msg_meaning. split.
  - intros H. split; [|split].
    + intros f v Hf Hv. destruct (F1 f Hf) as [f' Cf]. apply (field_meant f f' v Cf). apply Forall_forall. intros [ix r] Hr.
      apply (H (f_name f) ix r). apply in_app_iff. left. apply in_flat_map. exists f. split; auto. rewrite Hv. apply in_map_iff. eauto.
    + intros o Ho Ha R. apply (H (o_name o) None (want False [PStr "value is required"])). apply in_app_iff. right.
      apply in_flat_map. exists o. split; auto. rewrite Ha. cbn [oneof_reqs]. rewrite R. left. reflexivity.
    + intros o f v Ho Hf Ha. destruct (F2 o f Ho Hf) as [f' Cf]. apply (field_meant f f' v Cf). apply Forall_forall. intros [ix r] Hr.
      apply (H (f_name f) ix r). apply in_app_iff. right. apply in_flat_map. exists o. split; auto. rewrite Ha. cbn [oneof_reqs].
      rewrite find_field; auto; [|eapply oneof_nodup; eauto]. apply in_map_iff. eauto.
  - intros (A & B & D) fn ix r Hr. apply in_app_iff in Hr. destruct Hr as [Hr|Hr]; apply in_flat_map in Hr.
    + destruct Hr as (f & Hf & Hr). destruct (assoc _ _) as [v|] eqn:Ev; [|contradiction]. apply in_map_iff in Hr.
      destruct Hr as (q & [= <- ->] & Hq). destruct (F1 f Hf) as [f' Cf]. specialize (A f v Hf Ev). apply (field_meant f f' v Cf) in A.
      rewrite Forall_forall in A. exact (A _ Hq).
    + destruct Hr as (o & Ho & Hr). destruct (assoc _ _) as [[[fn' v]|]|] eqn:Ev; [| |contradiction].
      * cbn [oneof_reqs] in Hr. destruct (find _ _) as [f|] eqn:Ef; [|contradiction]. apply find_some in Ef. destruct Ef as [Hf Ef].
        apply String.eqb_eq in Ef. subst fn'. apply in_map_iff in Hr. destruct Hr as (q & [= <- ->] & Hq).
        destruct (F2 o f Ho Hf) as [f' Cf]. specialize (D o f v Ho Hf Ev). apply (field_meant f f' v Cf) in D.
        rewrite Forall_forall in D. exact (D _ Hq).
      * cbn [oneof_reqs] in Hr. destruct (getb (o_required o)) eqn:R; [|contradiction]. apply getb_true in R. exfalso. eapply B; eauto.
Qed.

Lemma msg_embeds_iff d m n1 m1 : NoDup (map f_name (all_fields d)) ->
  (exists f ix r, In (f, (ix, r)) (own_reqs orc sc d m) /\ rq_cause r = Embedded n1 m1) <-> msg_embeds sc d m n1 m1.
Proof.
  intros ND. unfold own_reqs, msg_reqs, msg_embeds. split.
  - intros (fn & ix & r & Hr & E). apply in_app_iff in Hr. destruct Hr as [Hr|Hr]; apply in_flat_map in Hr.
    + left. destruct Hr as (f & Hf & Hr). destruct (assoc _ _) as [v|] eqn:Ev; [|contradiction]. apply in_map_iff in Hr.
      destruct Hr as (q & [= <- ->] & Hq). exists f, v. repeat split; auto. apply field_embeds_iff. exists ix, r. auto.
    + right. destruct Hr as (o & Ho & Hr). destruct (assoc _ _) as [[[fn' v]|]|] eqn:Ev; [| |contradiction].
      * cbn [oneof_reqs] in Hr. destruct (find _ _) as [f|] eqn:Ef; [|contradiction]. apply find_some in Ef. destruct Ef as [Hf Ef].
        apply String.eqb_eq in Ef. subst fn'. apply in_map_iff in Hr. destruct Hr as (q & [= <- ->] & Hq).
        exists o, f, v. repeat split; auto. apply field_embeds_iff. exists ix, r. auto.
      * cbn [oneof_reqs] in Hr. destruct (getb (o_required o)); [|contradiction]. destruct Hr as [[= <- <- <-]|[]]. discriminate.
  - intros [(f & v & Hf & Ev & H)|(o & f & v & Ho & Hf & Ev & H)]; apply field_embeds_iff in H; destruct H as (ix & r & Hr & E);
      exists (f_name f), ix, r; (split; [|auto]); apply in_app_iff; [left|right]; apply in_flat_map.
    + exists f. split; auto. rewrite Ev. apply in_map_iff. eauto.
    + exists o. split; auto. rewrite Ev. cbn [oneof_reqs]. rewrite find_field; auto; [|eapply oneof_nodup; eauto]. apply in_map_iff. eauto.
Qed.
End W.

Section Schema.
Variable re_ok : bytes -> bool.
Variable sc0 sc : schema.
Variable orc : oracles.
Hypothesis checked : check_schema re_ok sc0 = Some sc.
Hypothesis wf : forall d, In d (sc_msgs sc0) -> NoDup (map f_name (all_fields d)).

Lemma checked_msg d : In d (sc_msgs sc0) -> exists d', check_msg re_ok sc0 d = Some d'.
Proof.
  intros Hin. unfold check_schema in checked. destruct (map_opt _ _) eqn:E; [|discriminate].
  apply map_opt_forall2 in E. clear - E Hin. induction E; [contradiction|]. destruct Hin as [->|]; eauto.
Qed.

Lemma reach_includes n m n' m' : reach orc sc0 n m n' m' <-> includes sc0 n m n' m'.
Proof.
  split; intros H; induction H as [|n m d]; try constructor.
  - eapply includes_down; eauto. apply (msg_embeds_iff orc); eauto. apply wf. apply find_some in H. tauto.
  - match goal with K : msg_embeds _ _ _ _ _ |- _ => apply (msg_embeds_iff orc) in K;
      [destruct K as (f & ix & r & Hr & E)|apply wf; apply find_some in H; tauto] end.
    eapply reach_down; eauto.
Qed.

Theorem valid_meant n m : valid orc sc0 n m <-> meant orc sc0 n m.
Proof.
  unfold valid, meant. split; intros H n' m' d R Hd Ed.
  - assert (I : In d (sc_msgs sc0)) by (apply find_some in Hd; tauto). destruct (checked_msg d I) as [d' C].
    apply (msg_meant re_ok orc sc0 d d'); auto. apply (H n' m' d); auto. now apply reach_includes.
  - assert (I : In d (sc_msgs sc0)) by (apply find_some in Hd; tauto). destruct (checked_msg d I) as [d' C].
    apply (msg_meant re_ok orc sc0 d d'); auto. apply (H n' m' d); auto. now apply reach_includes.
Qed.
End Schema.
