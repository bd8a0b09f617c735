(** The constants in generated Java are declared once, with the right types and values. *)
From Coq Require Import Lia.
From Verif Require Import Base BaseFacts Num Rules Types JavaName JavaNameSpec JavaNameFacts JavaNameLookup JavaConst JavaConstSpec.
Local Open Scope N_scope.

(** * The names *)
Lemma boundaries_app y f : forall d, boundaries d (f ++ 95 :: y) = boundaries d f ++ 95 :: boundaries false y.
Proof.
  induction f as [|c f IH]; intros d; [destruct d; reflexivity|]. cbn [app boundaries].
  assert (H : head_is digitb (f ++ 95 :: y) = head_is digitb f) by (destruct f; reflexivity). rewrite H.
  destruct d; [destruct (digitb c)|destruct (letterb c && head_is digitb f)]; cbn [app]; now rewrite IH.
Qed.
Lemma snake_app y x : forall l, snake l (x ++ 95 :: y) = snake l x ++ 95 :: snake (Some 95) y.
Proof.
  induction x as [|c x IH]; intros l; [destruct l; cbn [app snake]; [now rewrite andb_false_r|reflexivity]|]. cbn [app snake].
  assert (H : head_is lowerb (x ++ 95 :: y) = head_is lowerb x) by (destruct x; reflexivity).
  assert (H' : head_is upperb (x ++ 95 :: y) = head_is upperb x) by (destruct x; reflexivity). rewrite H, H'.
  destruct (_ && _); [destruct (upperb c)|destruct (_ || _)]; cbn [app]; now rewrite IH.
Qed.
Lemma repeat_last n x a : a <> 32 -> x ++ repeat 32 n = x ++ repeat 32 n -> forall z, z ++ [a] = x ++ repeat 32 n -> n = O.
Proof.
  intros A _ z E. destruct n as [|n]; auto. exfalso. rewrite <- (Nat.add_1_r n), repeat_app in E. cbn [repeat] in E. rewrite app_assoc in E.
  apply app_inj_tail in E. now destruct E.
Qed.
Lemma trim_none z a : head_is (N.eqb 32) (z ++ [a]) = false -> a <> 32 -> trim (z ++ [a]) = z ++ [a].
Proof.
  intros H A. destruct (trim_blank _ H) as [n E]. rewrite (repeat_last n (trim (z ++ [a])) a A eq_refl z E) in E. cbn [repeat] in E. rewrite app_nil_r in E. congruence.
Qed.

Definition stem (f : bytes) : bytes := map upc (snake None (boundaries false f)).
Definition ending (p : pos) (c : crule) : bytes := 95 :: map upc (snake (Some 95) (boundaries false (index p ++ 95 :: crule_name c))).
Lemma constant_shape f p c : ident f = true -> constant_name f p c = stem f ++ ending p c.
Proof.
  intros I. unfold constant_name, to_screaming. cbn [app]. rewrite boundaries_app.
  assert (T : exists z a, a <> 32 /\ boundaries false (index p ++ 95 :: crule_name c) = z ++ [a]).
  { exists (removelast (boundaries false (index p ++ 95 :: crule_name c))), (last (boundaries false (index p ++ 95 :: crule_name c)) 0).
    split; [destruct p, c; discriminate|]. apply app_removelast_last. destruct p, c; discriminate. }
  destruct T as (z & a & A & T). rewrite T. rewrite (app_assoc _ (95 :: z) [a] : boundaries false f ++ 95 :: z ++ [a] = (boundaries false f ++ 95 :: z) ++ [a]).
  rewrite trim_none; auto.
  - rewrite <- app_assoc. cbn [app]. rewrite <- T, snake_app, map_app. reflexivity.
  - destruct f as [|b f]; [reflexivity|]. pose proof (boundaries_head (b :: f) I) as H. destruct (boundaries false (b :: f)) as [|x y] eqn:E; [reflexivity|exact H].
Qed.

Lemma crule_dec (a b : crule) : {a = b} + {a <> b}. Proof. decide equality. Defined.
Definition crules : list crule := [CConst; CLt; CLte; CGt; CGte; CIn; CNotIn; CPattern; CPrefix; CContains; CSuffix; CWithin].
Definition poses : list pos := [AtField; AtItem; AtKey; AtValue].
Definition apart_check : bool :=
  forallb (fun p => forallb (fun c => forallb (fun q => forallb (fun d =>
    negb (has_suffix (ending p c) (ending q d)) || (bytes_eqb (index p) (index q) && if crule_dec c d then true else false)) crules) poses) crules) poses.
Lemma apart_ok : apart_check = true. Proof. vm_compute. reflexivity. Qed.
Lemma ending_apart p c q d : has_suffix (ending p c) (ending q d) = true -> index p = index q /\ c = d.
Proof.
  intros H. pose proof apart_ok as A. unfold apart_check in A. rewrite forallb_forall in A. assert (Ip : In p poses) by (destruct p; cbn; tauto).
  specialize (A p Ip). rewrite forallb_forall in A. assert (Ic : In c crules) by (destruct c; cbn; tauto). specialize (A c Ic).
  rewrite forallb_forall in A. assert (Iq : In q poses) by (destruct q; cbn; tauto). specialize (A q Iq).
  rewrite forallb_forall in A. assert (Id : In d crules) by (destruct d; cbn; tauto). specialize (A d Id). rewrite H in A. cbn [negb orb] in A.
  apply andb_true_iff in A. destruct A as [A B]. apply bytes_eqb_eq in A. destruct (crule_dec c d); [auto|discriminate].
Qed.
Lemma suffix_app x y : has_suffix (x ++ y) y = true.
Proof.
  unfold has_suffix. rewrite app_length, Nat.add_sub, skipn_app, skipn_all, Nat.sub_diag. cbn [app skipn]. apply andb_true_iff. split; [apply Nat.leb_le; lia|now apply bytes_eqb_eq].
Qed.
Lemma tails {A} (x y u v : list A) : x ++ u = y ++ v -> (exists w, u = w ++ v) \/ (exists w, v = w ++ u).
Proof.
  revert y. induction x as [|a x IH]; intros [|b y] E; cbn in E.
  - left. exists []. exact E.
  - left. now exists (b :: y).
  - right. now exists (a :: x).
  - injection E as _ E. eauto.
Qed.

(** ** Small letters without underscores *)
Definition blank (c : N) : bool := (c =? 32) || (c =? 95) || (c =? 45).
Definition bare (s : bytes) : bytes := map loc (filter (fun c => negb (blank c)) s).
Lemma bare_cons c s : bare (c :: s) = (if blank c then [] else [loc c]) ++ bare s.
Proof. unfold bare. cbn [filter]. destruct (blank c); reflexivity. Qed.
Lemma loc_upc c : loc (upc c) = loc c.
Proof. unfold upc. destruct (lowerb c) eqn:L; [|reflexivity]. unfold loc. rewrite (lo_upc_up c L), (lo_up c L). unfold lowerb in L. apply andb_true_iff in L. destruct L as [L _]. apply N.leb_le in L. lia. Qed.
Lemma blank_upc c : blank (upc c) = blank c.
Proof. unfold upc. destruct (lowerb c) eqn:L; [|reflexivity]. unfold blank, lowerb in *. apply andb_true_iff in L. destruct L as [L1 L2]. apply N.leb_le in L1. apply N.leb_le in L2.
  rewrite !neqb by lia. reflexivity. Qed.
Lemma bare_upc s : bare (map upc s) = bare s.
Proof. induction s as [|c s IH]; [reflexivity|]. cbn [map]. now rewrite !bare_cons, IH, blank_upc, loc_upc. Qed.
Lemma bare_snake s : forall l, bare (snake l s) = bare s.
Proof.
  induction s as [|c s IH]; intros l; [reflexivity|]. cbn [snake]. destruct (_ && _); [destruct (upperb c)|].
  - now rewrite !bare_cons, IH.
  - now rewrite !bare_cons, IH.
  - fold (blank c). destruct (blank c) eqn:B; rewrite !bare_cons, IH, ?B; reflexivity.
Qed.
Lemma bare_boundaries s : forall d, bare (boundaries d s) = bare s.
Proof.
  induction s as [|c s IH]; intros d; [destruct d; reflexivity|]. cbn [boundaries].
  destruct d; [destruct (digitb c)|destruct (_ && _)]; rewrite !bare_cons, IH; reflexivity.
Qed.
Lemma bare_squash s : ident s = true -> bare s = squash s.
Proof.
  induction s as [|c s IH]; intros I; [reflexivity|]. apply ident_cons in I. destruct I as [Ic I]. rewrite bare_cons, (IH I). unfold squash. cbn [filter].
  assert (B : blank c = (c =? 95)).
  { unfold blank. destruct (N.eqb_spec c 32) as [->|]; [discriminate Ic|]. destruct (N.eqb_spec c 45) as [->|]; [discriminate Ic|]. now rewrite orb_false_r. }
  rewrite B. destruct (c =? 95); reflexivity.
Qed.
Lemma stem_squash f : ident f = true -> bare (stem f) = squash f.
Proof. intros I. unfold stem. now rewrite bare_upc, bare_snake, bare_boundaries, bare_squash. Qed.
Lemma constant_inj f p c g q d : ident f = true -> ident g = true -> constant_name f p c = constant_name g q d ->
  squash f = squash g /\ index p = index q /\ c = d.
Proof.
  intros I J E. rewrite !constant_shape in E by auto.
  assert (K : index p = index q /\ c = d).
  { destruct (tails _ _ _ _ E) as [[w W]|[w W]].
    - apply ending_apart. rewrite W. apply suffix_app.
    - assert (index q = index p /\ d = c) as [-> ->]; auto. apply ending_apart. rewrite W. apply suffix_app. }
  destruct K as [Kp ->]. split; auto. assert (ending p d = ending q d) as Q by (unfold ending; now rewrite Kp). rewrite Q in E. apply app_inv_tail in E.
  rewrite <- !stem_squash by auto. now rewrite E.
Qed.

(** ** They are identifiers *)
Lemma upc_ident c : ident_char c = true -> ident_char (upc c) = true.
Proof. unfold upc. destruct (lowerb c) eqn:L; auto. intros _. unfold ident_char, letterb. now rewrite (lo_upc_up c L). Qed.
Lemma snake_chars v : forallb spaced v = true -> forall last, ident (map upc (snake last v)) = true.
Proof.
  induction v as [|c v IH]; intros S last; [reflexivity|]. cbn [forallb] in S. apply andb_true_iff in S. destruct S as [Sc S]. cbn [snake].
  assert (U : (c =? 32) || (c =? 95) || (c =? 45) = false -> ident_char (upc c) = true).
  { intros H. apply upc_ident. unfold spaced in Sc. apply orb_true_iff in Sc. destruct Sc as [|Sc]; auto. now rewrite Sc in H. }
  destruct (_ && _) eqn:E.
  - assert (ident_char (upc c) = true) as V.
    { apply upc_ident. apply andb_true_iff in E. destruct E as [_ E]. unfold ident_char, letterb. destruct (upperb c); [reflexivity|]. cbn [andb orb] in *.
      apply andb_true_iff in E. destruct E as [-> _]. reflexivity. }
    destruct (upperb c); cbn [map ident forallb]; fold ident; rewrite V; cbn [andb]; apply IH; auto.
  - destruct (_ || _) eqn:B; cbn [map ident forallb]; [apply IH; auto|]. rewrite U by auto. apply IH; auto.
Qed.
Lemma constant_identifier f p c : identifier f = true -> identifier (constant_name f p c) = true.
Proof.
  intros I. pose proof (identifier_ident f I) as J. rewrite constant_shape by auto.
  assert (A : ident (stem f ++ ending p c) = true).
  { unfold ident. rewrite forallb_app. apply andb_true_iff. split; [apply snake_chars, bound_spaced, J|destruct p, c; reflexivity]. }
  destruct f as [|a f]; [discriminate|]. unfold stem in *. cbn [boundaries] in *.
  assert (H : exists b t, snake None (if letterb a && head_is digitb f then a :: 32 :: boundaries true f else a :: boundaries false f) = b :: t /\ (letterb (upc b) || (upc b =? 95)) = true).
  { cbn in I. apply andb_true_iff in I. destruct I as [I _].
    destruct (letterb a && head_is digitb f); cbn [snake andb]; destruct (_ || _ || _); eexists; eexists; (split; [reflexivity|]); try reflexivity.
    all: unfold upc; destruct (lowerb a) eqn:L; auto; unfold letterb; now rewrite (lo_upc_up a L). }
  destruct H as (b & t & E & B). rewrite E in *. cbn [map app] in *. cbn [ident forallb] in A. apply andb_true_iff in A. destruct A as [_ A].
  cbn [identifier]. now rewrite B.
Qed.

(** * Each once *)
Lemma declares_once p e r : NoDup (map fst (declares p e r)).
Proof.
  unfold declares, if_set, if_bytes, if_any.
  destruct r as [k r|b|r|r|r|r|r|r|r|r]; try constructor;
    repeat match goal with |- context [match ?o with Some _ => _ | None => _ end] => destruct o | |- context [match ?l with [] => _ | _ :: _ => _ end] => destruct l end; cbn;
    repeat (apply NoDup_cons; [cbn; intuition discriminate|]); apply NoDup_nil.
Qed.
Lemma flat_nodup {A B} (g : A -> list B) l : (forall x, In x l -> NoDup (g x)) ->
  (forall x y b, In x l -> In y l -> In b (g x) -> In b (g y) -> x = y) -> NoDup l -> NoDup (flat_map g l).
Proof.
  induction l as [|a l IH]; intros G D N; [constructor|]. inversion N. subst. cbn [flat_map].
  assert (T : NoDup (flat_map g l)) by (apply IH; auto; [intros; apply G; now right|intros x y b X Y; apply D; now right]).
  assert (S : forall b, In b (g a) -> ~ In b (flat_map g l)).
  { intros b Hb Hl. apply in_flat_map in Hl. destruct Hl as (y & Y & Hy). assert (a = y) by (apply (D a y b); auto; [now left|now right]). now subst. }
  specialize (G a (or_introl eq_refl)). revert G S. induction (g a) as [|b m IHm]; intros G S; [exact T|]. inversion G. subst. cbn [app]. constructor.
  - intros H. apply in_app_or in H. destruct H as [H|H]; [contradiction|]. now apply (S b (or_introl eq_refl)).
  - apply IHm; auto. intros x X. apply S. now right.
Qed.
Lemma map_nodup {A B} (g : A -> B) l : (forall x y, In x l -> In y l -> g x = g y -> x = y) -> NoDup l -> NoDup (map g l).
Proof.
  induction l as [|a l IH]; intros D N; constructor; inversion N; subst.
  - intros H. apply in_map_iff in H. destruct H as (x & E & X). assert (x = a) by (apply D; auto; [now right|now left]). now subst.
  - apply IH; auto. intros; apply D; auto; now right.
Qed.
Lemma flat_map_map {A B C} (g : B -> C) (h : A -> list B) l : map g (flat_map h l) = flat_map (fun x => map g (h x)) l.
Proof. induction l as [|a l IH]; [reflexivity|]. cbn [flat_map]. now rewrite map_app, IH. Qed.

Lemma parts_shape f : parts f = [] \/ (exists x, parts f = [x]) \/ (exists k v r s, parts f = [(AtKey, k, r); (AtValue, v, s)]).
Proof.
  unfold parts, typed. destruct (f_type f) as [e|e|k v].
  - destruct (fr_typ (f_rules f)); eauto.
  - destruct (fr_typ (f_rules f)) as [[]|]; auto. destruct (r_items r) as [[m [t|]]|]; cbn [fr_typ]; eauto.
  - destruct (fr_typ (f_rules f)) as [[]|]; auto. destruct (p_keys r) as [[m [t|]]|], (p_values r) as [[m' [t'|]]|]; cbn [fr_typ app]; eauto 10.
Qed.
Lemma field_once f : ident (bs (f_name f)) = true -> NoDup (map fst (field_constants f)).
Proof.
  intros I. unfold field_constants. rewrite flat_map_map.
  assert (E : forall x, map fst (let '(p, e, r) := x in map (fun c : crule * (jtype * content) => (constant_name (bs (f_name f)) p (fst c), snd c)) (declares p e r)) =
    map (constant_name (bs (f_name f)) (fst (fst x))) (map fst (declares (fst (fst x)) (snd (fst x)) (snd x)))).
  { intros [[p e] r]. cbn [fst snd]. rewrite !map_map. reflexivity. }
  apply flat_nodup.
  - intros x _. rewrite E. apply map_nodup; [|apply declares_once]. intros c d _ _ H. now apply constant_inj in H.
  - intros x y b X Y HX HY. rewrite E in HX, HY. apply in_map_iff in HX. apply in_map_iff in HY. destruct HX as (c & <- & _), HY as (d & Q & _).
    symmetry in Q. apply constant_inj in Q; auto. destruct Q as (_ & Q & _).
    destruct (parts_shape f) as [P|[[z P]|(k & v & r & s & P)]]; rewrite P in X, Y.
    + destruct X.
    + destruct X as [->|[]], Y as [->|[]]. reflexivity.
    + destruct X as [<-|[<-|[]]], Y as [<-|[<-|[]]]; auto; discriminate Q.
  - destruct (parts_shape f) as [P|[[z P]|(k & v & r & s & P)]]; rewrite P; [constructor|constructor; [intros []|constructor]|].
    constructor; [intros [H|[]]; discriminate H|constructor; [intros []|constructor]].
Qed.
Lemma field_names f n c : In (n, c) (field_constants f) -> exists p r, n = constant_name (bs (f_name f)) p r.
Proof.
  unfold field_constants. intros H. apply in_flat_map in H. destruct H as ([[p e] r] & _ & H). apply in_map_iff in H. destruct H as ([c' x] & E & _).
  injection E as <- _. eauto.
Qed.
Lemma nodup_map_inv {A B} (g : A -> B) l : NoDup (map g l) -> NoDup l /\ forall x y, In x l -> In y l -> g x = g y -> x = y.
Proof.
  induction l as [|a l IH]; intros N; [split; [constructor|intros ? ? []]|]. cbn in N. inversion N. subst. destruct (IH H2) as [M D]. split.
  - constructor; auto. intros H. apply H1. now apply in_map.
  - intros x y [<-|X] [<-|Y] E; auto; exfalso; apply H1; [rewrite E|rewrite <- E]; now apply in_map.
Qed.
Lemma constants_once d ds : proto3_names d -> constants d = Some ds -> NoDup (map fst ds).
Proof.
  intros [N I] C. unfold constants in C. destruct (existsb _ _); [discriminate|]. injection C as <-. unfold names in *.
  set (fs := md_fields d ++ flat_map o_fields (md_oneofs d)) in *. rewrite map_map in N. apply nodup_map_inv in N. destruct N as [N D].
  assert (J : forall f, In f fs -> ident (bs (f_name f)) = true) by (intros f F; apply identifier_ident, I, in_map_iff; eauto).
  rewrite flat_map_map. apply flat_nodup; auto.
  - intros f F. apply field_once. auto.
  - intros f g n F G HF HG. apply in_map_iff in HF. apply in_map_iff in HG. destruct HF as ([n1 c1] & E1 & HF), HG as ([n2 c2] & E2 & HG). cbn in E1, E2. subst n1 n2.
    apply field_names in HF. apply field_names in HG. destruct HF as (p & r & ->), HG as (q & s & E). apply constant_inj in E; auto. apply D; auto. apply E.
Qed.
Lemma constants_identifiers d ds n c : proto3_names d -> constants d = Some ds -> In (n, c) ds -> identifier n = true.
Proof.
  intros [N I] C H. unfold constants in C. destruct (existsb _ _); [discriminate|]. injection C as <-. apply in_flat_map in H. destruct H as (f & F & H).
  apply field_names in H. destruct H as (p & r & ->). apply constant_identifier, I. unfold names. apply in_map_iff. eauto.
Qed.

(** * What is referred to is declared *)
Ltac pick := first [apply in_eq | apply in_or_app; left; pick | apply in_or_app; right; pick].
Lemma used_declared p e r c : rule_for e r -> (p = AtField \/ forall w, e <> TWrap w) -> (forall n, e = TEnum n -> p = AtField \/ p = AtItem) -> In c (uses r) ->
  exists t v, In (c, (t, v)) (declares p e r) /\ type_fits e c t /\ holds_value e r c v.
Proof.
  intros F W M U.
  assert (V : match r with RNum k _ => java_type p e = boxed k /\ value_type e = boxed k
    | RString _ => value_type e = JString /\ (java_type p e = JString \/ java_type p e = JObject)
    | RBytes _ => value_type e = JByteString
    | REnum _ => exists n, e = TEnum n /\ java_type p e = JEnum n
    | RAny _ => value_type e = JString | RDuration _ => value_type e = JDuration | RTimestamp _ => value_type e = JTimestamp | _ => True end).
  { destruct r; cbn [rule_for] in F; auto.
    - destruct F as [->|(w & -> & K)].
      + destruct p; auto.
      + destruct W as [->|W]; [|now elim (W w)]. destruct w; try discriminate K; injection K as <-; auto.
    - destruct F as [->| ->]; [destruct p; auto|]. destruct W as [->|W]; [auto|now elim (W WkString)].
    - destruct F as [->| ->]; auto.
    - destruct F as [n ->]. exists n. split; auto. destruct (M n eq_refl) as [->| ->]; reflexivity.
    - now subst e.
    - now subst e.
    - now subst e. }
  unfold uses, bound_uses in U.
  destruct r as [k r|b|r|r|r|r|r|r|r|r]; cbn [declares holds_value] in *; try destruct U.
  all: try match type of U with context [if ?b then ?x else ?x] => replace (if b then x else x) with x in U by (destruct b; reflexivity) end.
  all: repeat match type of U with In _ (_ ++ _) => apply in_app_or in U; destruct U as [U|U] end.
  all: match type of U with In _ (match ?o with _ => _ end) => destruct o eqn:O; [try (destruct U; fail)|try (destruct U; fail)] end.
  all: try match type of U with In _ (match ?o with _ => _ end) => destruct o eqn:O'; [try (destruct U; fail)|try (destruct U; fail)] end.
  all: destruct U as [<-|[]].
  all: eexists; eexists; split; [unfold if_set, if_any, if_bytes; rewrite ?O; pick|].
  all: cbn [type_fits holds_value rule_value enum_value]; rewrite ?O; try (split; [|reflexivity]).
  all: try (rewrite V; auto; fail).
  all: try reflexivity.
  all: try (destruct V as [V1 V2]; rewrite ?V1, ?V2; auto; fail).
  all: try (destruct V as [V1 [V2|V2]]; rewrite ?V1, ?V2; auto; fail).
  all: try (destruct V as (n & -> & V2); rewrite ?V2; split; [auto|eauto 8]; fail).
Qed.

Lemma part_place f p e r : In (p, e, r) (parts f) -> match p with AtField => exists e, f_type f = FOne e | AtItem => exists e, f_type f = FRep e | _ => exists k v, f_type f = FMap k v end.
Proof.
  unfold parts, typed. destruct (f_type f) as [e'|e'|k v].
  - destruct (fr_typ (f_rules f)); [|intros []]. intros [H|[]]. injection H as <- _ _. eauto.
  - destruct (fr_typ (f_rules f)) as [[]|]; try (intros []; fail). destruct (match r_items r0 with Some fr => fr_typ fr | None => None end); [|intros []].
    intros [H|[]]. injection H as <- _ _. eauto.
  - destruct (fr_typ (f_rules f)) as [[]|]; try (intros []; fail). intros H. apply in_app_or in H.
    destruct H as [H|H]; [destruct (match p_keys r0 with Some fr => fr_typ fr | None => None end)|destruct (match p_values r0 with Some fr => fr_typ fr | None => None end)];
      try (destruct H; fail); destruct H as [H|[]]; injection H as <- _ _; eauto.
Qed.
Lemma uses_enum f p n r c : In (p, TEnum n, REnum r) (parts f) -> In c (uses (REnum r)) -> enum_types f <> [].
Proof.
  intros P U E. assert (In (java_type p (TEnum n), n) (enum_types f)) as H; [|rewrite E in H; destruct H].
  unfold enum_types. apply in_flat_map. exists (p, TEnum n, REnum r). split; auto. cbn [uses] in U. apply in_app_or in U.
  destruct (e_in r), (e_not_in r); cbn in *; try (destruct U as [[]|[]]; fail); rewrite ?orb_true_r; now left.
Qed.
Lemma references_declared d ds n p e r c : constants d = Some ds -> rules_for d -> no_enum_values d -> In (n, (p, e, r, c)) (references d) ->
  exists t v, In (n, (t, v)) ds /\ type_fits e c t /\ holds_value e r c v.
Proof.
  intros C F N H. unfold constants in C. destruct (existsb _ _) eqn:B; [discriminate|]. injection C as <-. unfold references in H.
  destruct (md_disabled d); [destruct H|]. apply in_flat_map in H. destruct H as (f & Hf & H). unfold field_references in H. apply in_flat_map in H.
  destruct H as ([[p' e'] r'] & P & H). apply in_map_iff in H. destruct H as (c' & E & U). injection E as <- -> -> -> ->.
  destruct (used_declared p e r c) as (t & v & D & T & V); auto.
  - now apply (F f p e r).
  - destruct p; auto; right; intros w ->; assert (X : existsb (fun f => existsb panics (parts f)) (md_fields d ++ flat_map o_fields (md_oneofs d)) = true);
      try (rewrite X in B; discriminate); apply existsb_exists; exists f; (split; [exact Hf|]); apply existsb_exists; eexists; (split; [exact P|reflexivity]).
  - intros m ->. pose proof (F f p (TEnum m) r Hf P) as R. destruct r; cbn in R; try (now destruct R); try discriminate R;
      try (destruct R as [R|(w & R & _)]; discriminate R); try (destruct R as [R|R]; discriminate R).
    pose proof (part_place f _ _ _ P) as L. destruct p; auto; exfalso; apply (uses_enum f _ m r c P U); apply N; auto.
  - exists t, v. split; auto. apply in_flat_map. exists f. split; auto. unfold field_constants. apply in_flat_map. exists (p, e, r). split; auto.
    apply in_map_iff. exists (c, (t, v)). auto.
Qed.
Lemma enum_types_right d f t n : no_enum_values d -> In f (md_fields d ++ flat_map o_fields (md_oneofs d)) -> In (t, n) (enum_types f) -> t = JEnum n.
Proof.
  intros N F H. assert (K : enum_types f <> []) by (intros E; rewrite E in H; destruct H). unfold enum_types in H. apply in_flat_map in H.
  destruct H as ([[p e] r] & P & H). pose proof (part_place f _ _ _ P) as L. destruct e; try (destruct H; fail). destruct r; try (destruct H; fail).
  destruct (_ || _ || _); [|destruct H]. destruct H as [H|[]]. injection H as <- <-.
  destruct p; auto; elim K; apply N; auto.
Qed.
Lemma constants_none d : constants d = None <-> exists f, In f (md_fields d ++ flat_map o_fields (md_oneofs d)) /\ wrapper_elements f.
Proof.
  unfold constants. assert (Q : forall f, existsb panics (parts f) = true <-> wrapper_elements f).
  { intros f. unfold wrapper_elements, parts, typed. destruct (f_type f) as [e|e|k v].
    - split; [|intros (w & [(r & fr & t & H & _)|[(k & r & fr & t & H & _)|(k & r & fr & t & H & _)]]); discriminate H].
      destruct (fr_typ (f_rules f)); [|discriminate]. cbn. destruct e; discriminate.
    - split.
      + destruct (fr_typ (f_rules f)) as [[]|] eqn:E; try discriminate. destruct (r_items r) as [[m [t|]]|] eqn:R; try discriminate. cbn [fr_typ existsb panics].
        destruct e; try discriminate. intros _. exists w. left. exists r, (FR m (Some t)), t. auto.
      + intros (w & [(r & fr & t & H & E & R & T)|[(k & r & fr & t & H & _)|(k & r & fr & t & H & _)]]); try discriminate H. injection H as ->. now rewrite E, R, T.
    - split.
      + destruct (fr_typ (f_rules f)) as [[]|] eqn:E; try discriminate. rewrite existsb_app. intros H. apply orb_true_iff in H. destruct H as [H|H].
        * destruct (p_keys r) as [[m [t|]]|] eqn:R; try discriminate H. cbn [fr_typ existsb panics] in H. destruct k; try discriminate H.
          exists w. right. right. exists v, r, (FR m (Some t)), t. auto.
        * destruct (p_values r) as [[m [t|]]|] eqn:R; try discriminate H. cbn [fr_typ existsb panics] in H. destruct v; try discriminate H.
          exists w. right. left. exists k, r, (FR m (Some t)), t. auto.
      + intros (w & [(r & fr & t & H & _)|[(k' & r & fr & t & H & E & R & T)|(k' & r & fr & t & H & E & R & T)]]); try discriminate H; injection H as -> ->; rewrite E, R, T, existsb_app; cbn; auto.
        now rewrite orb_true_r. }
  split.
  - destruct (existsb _ _) eqn:E; [|discriminate]. intros _. apply existsb_exists in E. destruct E as (f & F & E). exists f. split; auto. now apply Q.
  - intros (f & F & W). replace (existsb _ _) with true; [reflexivity|]. symmetry. apply existsb_exists. exists f. split; auto. now apply Q.
Qed.
