(** C46: the function cache of the Python validator.

    [verdict pl pn pool i n m o] (PyCache.v): validating the message [m] of the type [n] of the descriptor pool [i] can end
    with [o], the cache being in states reached by any history of calls.  [py_validate_f pl pn (pool i) fuel n m]: the same
    without a cache.  [one_meaning pn pool] (PyCacheSpec.v): types with the same full name are declared alike in all pools. *)
From Coq Require Import Lia.
From Verif Require Import Base Rules Types Outcome GoSem Spec Setting Example Values JavaEx Py PySpec PyEx PropPy PyCache PyCacheSpec PyCacheFacts.
Local Open Scope string_scope.

(** Whatever was validated before, and meanwhile, the verdict is that of a function generated afresh. *)
Theorem py_cache_transparent : forall pl pn pool, one_meaning pn pool ->
  forall i n m o, verdict pl pn pool i n m o -> forall fuel, mheight m < fuel -> o = py_validate_f pl pn (pool i) fuel n m.
Proof. exact verdict_uncached. Qed.
Print Assumptions py_cache_transparent.

(** And in every state of the cache validation does come to that verdict. *)
Theorem py_cache_answers : forall pl pn pool, one_meaning pn pool ->
  forall c, history pl pn pool c -> forall i n m fuel, mheight m < fuel ->
    verdict pl pn pool i n m (py_validate_f pl pn (pool i) fuel n m) /\
    forall d j d', find_msg (pool i) n = Some d -> inner_of pn c i n d = (j, d') ->
      py_msg pl (pool j) (py_validate_f pl pn (pool i) fuel) pn d' m = py_validate_f pl pn (pool i) fuel n m.
Proof.
  intros pl pn pool O c H i n m fuel L. split; [exact (verdict_exists pl pn pool O i c H fuel n m L)|].
  intros d j d' F I. destruct (served pl pn pool O c i n d j d' H F I) as [-> A].
  rewrite (fuel_same pl pn (pool i) fuel (S fuel)) by lia. cbn [py_validate_f]. rewrite F.
  apply msg_same with (h := mheight m); auto.
Qed.
Print Assumptions py_cache_answers.

(** So cached validation is exact where [validate] is (C43). *)
Theorem py_cached_exact : forall re_ok sc orc pl pn pool i, one_meaning pn pool -> py_setting re_ok (pool i) sc orc pl pn ->
  forall n d m o, message (pool i) n d m -> py_values sc orc pl n m -> verdict pl pn pool i n m o ->
    (o = Passes <-> valid orc (pool i) n m) /\ (o = Rejects <-> ~ valid orc (pool i) n m).
Proof.
  intros re_ok sc orc pl pn pool i O S n d m o M V H.
  rewrite (py_cache_transparent pl pn pool O i n m o H (Datatypes.S (mheight m))) by lia.
  apply (py_validate_exact re_ok (pool i) sc orc pl pn S n d m M V). lia.
Qed.
Print Assumptions py_cached_exact.

(** The cache has at most 128 functions, one for a name. *)
Theorem py_cache_small : forall pl pn pool c, history pl pn pool c -> List.length c <= 128 /\ NoDup (map fst c).
Proof. intros pl pn pool c H. split; [exact (entries_few pl pn pool c H)|exact (keys_once pl pn pool c H)]. Qed.
Print Assumptions py_cache_small.

(** A second pool that shares the type Location with the first. *)
Definition other_msg : msgdesc := mkMsg "Trip" [mkField "Start" (FOne (TMsg "Location")) (FR None None)] [] false MBoth.
Definition pools (i : nat) : schema :=
  match i with
  | O => ex4_schema
  | _ => mkSchema [ex_location; other_msg] (sc_enums ex4_schema) ["Location"; "Trip"]
  end.
Lemma pools_names i n d : find_msg (pools i) n = Some d -> md_name d = n.
Proof. unfold find_msg. intros H. apply find_some in H. destruct H as [_ H]. now apply String.eqb_eq in H. Qed.
Lemma pools_one : one_meaning ex_pn pools.
Proof.
  assert (N : forall a b, String.append "example." a = String.append "example." b -> a = b) by (intros a b E; now injection E).
  intros i j n n' d d' F F' E. apply N in E. subst n'.
  assert (Q : d = d').
  { destruct i as [|i], j as [|j]; [congruence| | |change (pools (S j)) with (pools (S i)) in F'; congruence]; apply find_some in F; apply find_some in F'; destruct F as [I E], F' as [I' E'];
      apply String.eqb_eq in E; apply String.eqb_eq in E'; cbn in I, I';
      repeat (destruct I as [<-|I]; [|]); try contradiction; repeat (destruct I' as [<-|I']; [|]); try contradiction; try reflexivity; subst n; discriminate. }
  split; [exact Q|]. subst d'. intros f e Hf He. split; [|split].
  - destruct i, j; reflexivity.
  - destruct i, j; reflexivity.
  - intros t ->. destruct i as [|i], j as [|j]; auto;
      apply find_some in F; apply find_some in F'; destruct F as [I E], F' as [I' E']; apply String.eqb_eq in E; cbn in I, I';
      repeat (destruct I as [<-|I]; [|]); try contradiction; repeat (destruct I' as [I'|I']; [|]); try contradiction; try discriminate I';
      vm_compute in Hf; repeat (destruct Hf as [<-|Hf]; [|]); try contradiction; cbn in He; repeat (destruct He as [He|He]; [|]); try discriminate He; contradiction.
Qed.
(** The cache after validating a Trip of the second pool (and so its Location) and an Account of the first. *)
Definition full_cache : cache := [("example.Account", (0, ex4_account)); ("example.Location", (1, ex_location)); ("example.Trip", (1, other_msg))].
Lemma full_history : history ex_pl ex_pn pools full_cache.
Proof.
  assert (H1 : history ex_pl ex_pn pools [("example.Trip", (1, other_msg))]).
  { apply (miss ex_pl ex_pn pools [] 1 "Trip" other_msg); [constructor|reflexivity|vm_compute; reflexivity|reflexivity]. }
  assert (H2 : history ex_pl ex_pn pools [("example.Location", (1, ex_location)); ("example.Trip", (1, other_msg))]).
  { apply (miss ex_pl ex_pn pools _ 1 "Location" ex_location H1); [reflexivity|vm_compute; reflexivity|reflexivity]. }
  apply (miss ex_pl ex_pn pools _ 0 "Account" ex4_account H2); [reflexivity|vm_compute; reflexivity|reflexivity].
Qed.
Example py_cache_ex :
  one_meaning ex_pn pools /\ history ex_pl ex_pn pools full_cache /\
  inner_of ex_pn full_cache 0 "Location" ex_location = (1, ex_location) /\
  verdict ex_pl ex_pn pools 0 "Account" ex4_good Passes /\ verdict ex_pl ex_pn pools 0 "Account" ex4_bad Rejects.
Proof.
  split; [exact pools_one|]. split; [exact full_history|]. split; [reflexivity|]. split.
  - assert (V := proj1 (py_cache_answers ex_pl ex_pn pools pools_one _ full_history 0 "Account" ex4_good 9 ltac:(vm_compute; lia))).
    replace Passes with (py_validate_f ex_pl ex_pn (pools 0) 9 "Account" ex4_good) by (vm_compute; reflexivity). exact V.
  - assert (V := proj1 (py_cache_answers ex_pl ex_pn pools pools_one _ full_history 0 "Account" ex4_bad 9 ltac:(vm_compute; lia))).
    replace Rejects with (py_validate_f ex_pl ex_pn (pools 0) 9 "Account" ex4_bad) by (vm_compute; reflexivity). exact V.
Qed.

(** ** Two declarations of one name

    Without [one_meaning] the first pool decides for the others: here the second has a rule that is never applied. *)
Definition clashing (i : nat) : schema :=
  one_schema (FOne TString) (match i with O => FR None None | _ => s_rules (min_len 3) end).
Theorem py_cache_pools_refuted :
  exists c, history ex_pl ex_pn clashing c /\
    verdict ex_pl ex_pn clashing 1 "M" (one_value (VStr (bs "a"))) Passes /\
    verdict ex_pl ex_pn clashing 1 "M" (one_value (VStr (bs "a"))) Rejects /\
    forall fuel, 0 < fuel -> py_validate_f ex_pl ex_pn (clashing 1) fuel "M" (one_value (VStr (bs "a"))) = Rejects.
Proof.
  set (d i := one_field (FOne TString) (match i with O => FR None None | _ => s_rules (min_len 3) end)).
  assert (H : history ex_pl ex_pn clashing [("example.M", (0, d 0))]).
  { apply (miss ex_pl ex_pn clashing [] 0 "M" (d 0)); [constructor|reflexivity|vm_compute; reflexivity|reflexivity]. }
  exists [("example.M", (0, d 0))]. split; [exact H|].
  assert (Z : mheight (one_value (VStr (bs "a"))) = 0) by reflexivity. split; [|split].
  - change Passes with (py_msg ex_pl (clashing 0) (fun _ _ => Passes) ex_pn (d 0) (one_value (VStr (bs "a")))).
    apply (called ex_pl ex_pn clashing 1 "M" _ (d 1) _ 0 (d 0) (fun _ _ => Passes)) with (2 := H); [reflexivity|reflexivity|]. intros n' m'. rewrite Z. lia.
  - replace Rejects with (py_msg ex_pl (clashing 1) (fun _ _ => Passes) ex_pn (d 1) (one_value (VStr (bs "a")))) by (vm_compute; reflexivity).
    apply (called ex_pl ex_pn clashing 1 "M" _ (d 1) [] 1 (d 1) (fun _ _ => Passes)); [reflexivity|constructor|reflexivity|]. intros n' m'. rewrite Z. lia.
  - intros fuel L. rewrite (fuel_same ex_pl ex_pn (clashing 1) fuel 5); [vm_compute; reflexivity|rewrite Z; lia|rewrite Z; lia].
Qed.
Print Assumptions py_cache_pools_refuted.
