(** The text of an error of C++. *)
From Coq Require Import Lia.
From Verif Require Import Base Num Rules Types Iface ErrTextFacts Report CcReport BaseFacts.

(** Once the put position is at the end. *)
Lemma put_end b s : put (b, List.length b) s = ((b ++ s)%list, List.length (b ++ s)%list).
Proof.
  unfold put. rewrite firstn_all, (skipn_all2 (n := (List.length b + List.length s)%nat)), app_nil_r, app_length by lia. reflexivity.
Qed.
(** The first text is long enough to overwrite "invalid ". *)
Lemma put_first s : (8 <= List.length s)%nat -> put invalid_stream s = (s, List.length s).
Proof.
  intros H. unfold put, invalid_stream. rewrite skipn_all2 by (cbn; lia). cbn. now rewrite app_nil_r.
Qed.

Lemma cc_error_text_is key msg field idx reason cause :
  cc_error_text key msg field idx reason cause =
    ((if key : bool then bs "key for " else []) ++ msg ++ bs "ValidationError" ++ bs "." ++ field ++
     match idx with Some i => bs "[" ++ i ++ bs "]" | None => [] end ++ bs ": " ++ reason ++
     match cause with Some c => bs " | caused by " ++ c | None => [] end)%list.
Proof.
  unfold cc_error_text.
  assert (H : put (if key then put invalid_stream (bs "key for ") else invalid_stream) (msg ++ bs "ValidationError") =
    (((if key then bs "key for " else []) ++ msg ++ bs "ValidationError")%list, List.length ((if key then bs "key for " else []) ++ msg ++ bs "ValidationError")%list)).
  { destruct key.
    - rewrite put_first by (vm_compute; lia). apply put_end.
    - apply put_first. cbn [app]. rewrite app_length. change (List.length (bs "ValidationError")) with 15%nat. lia. }
  rewrite H. rewrite !put_end. destruct idx as [i|]; rewrite ?put_end; destruct cause as [c|]; rewrite ?put_end; cbn [str fst]; now rewrite ?app_nil_r, <- ?app_assoc.
Qed.

Lemma ident_no_dot s : ident s -> ~ In 46%N (bs s ++ bs "ValidationError").
Proof.
  intros F I. apply in_app_iff in I. destruct I as [I|I].
  - unfold ident in F. rewrite Forall_forall in F. specialize (F _ I). unfold ident_char in F. lia.
  - cbn in I. repeat (destruct I as [I|I]; [discriminate|]). exact I.
Qed.

Lemma cc_text_names key msg field idx reason cause key' msg' field' idx' reason' cause' :
  ident msg -> ident msg' -> ident field -> ident field' ->
  cc_error_text key (bs msg) (bs field) idx reason cause = cc_error_text key' (bs msg') (bs field') idx' reason' cause' ->
  key = key' /\ msg = msg' /\ field = field' /\ (idx = None <-> idx' = None).
Proof.
  intros M M' F F'. rewrite !cc_error_text_is. intros E.
  (* the key *)
  assert (K : key = key').
  { assert (Z : forall m r r', ident m -> bs "key for " ++ r = bs m ++ bs "ValidationError" ++ bs "." ++ r' -> False).
    { clear. intros m r r' Hm E. rewrite app_assoc in E.
      assert (H : nth_error (bs "key for " ++ r)%list 3 = nth_error ((bs m ++ bs "ValidationError") ++ bs "." ++ r')%list 3) by (now rewrite E).
      assert (Hl : (3 < List.length (bs m ++ bs "ValidationError"))%nat) by (rewrite app_length; change (List.length (bs "ValidationError")) with 15%nat; lia).
      rewrite (nth_error_app1 (bs m ++ bs "ValidationError")) in H by exact Hl. change (nth_error (bs "key for " ++ r)%list 3) with (Some 32%N) in H.
      symmetry in H. apply nth_error_In in H. apply in_app_iff in H. destruct H as [H|H].
      - unfold ident in Hm. rewrite Forall_forall in Hm. specialize (Hm _ H). unfold ident_char in Hm. lia.
      - cbn in H. repeat (destruct H as [H|H]; [discriminate|]). exact H. }
    destruct key, key'; auto; exfalso; cbn [app] in E; [eapply Z in E|symmetry in E; eapply Z in E]; auto. }
  subst key'. apply app_inv_head in E. split; auto.
  rewrite !(app_assoc (bs _) (bs "ValidationError")) in E.
  apply (split_not 46%N) in E; try (now apply ident_no_dot). destruct E as [E1 E2]. apply app_inv_tail in E1. apply bs_inj in E1. split; auto.
  clear - E2 F F'.
  assert (Nc : forall b, ident_char b -> b <> 91%N /\ b <> 58%N) by (intros b Hb; unfold ident_char in Hb; lia).
  assert (Q : forall (i : option bytes) r, exists x t, (match i with Some i => bs "[" ++ i ++ bs "]" | None => [] end ++ bs ": " ++ r)%list = x :: t /\ ((i = None /\ x = 58%N) \/ (i <> None /\ x = 91%N))).
  { intros [i|] r; do 2 eexists; (split; [reflexivity|]); [right; split; [discriminate|auto]|left; auto]. }
  match type of E2 with (bs field ++ ?a = bs field' ++ ?b)%list => 
    destruct (Q idx (reason ++ match cause with Some c => bs " | caused by " ++ c | None => [] end)%list) as (x & t & Ex & Hx);
    destruct (Q idx' (reason' ++ match cause' with Some c => bs " | caused by " ++ c | None => [] end)%list) as (y & u & Ey & Hy) end.
  rewrite Ex, Ey in E2.
  destruct (split_first ident_char x y) with (a := bs field) (a' := bs field') (t := t) (t' := u) as (A & B & _); auto.
  { intros b Hb. destruct (Nc b Hb). destruct Hx as [[_ ->]|[_ ->]], Hy as [[_ ->]|[_ ->]]; auto. }
  apply bs_inj in A. split; auto. subst y. destruct Hx as [[H1 H2]|[H1 H2]], Hy as [[H3 H4]|[H3 H4]]; try congruence; tauto.
Qed.

Lemma cc_text_not_invalid key msg field idx reason cause : ident msg ->
  ~ exists t, cc_error_text key (bs msg) field idx reason cause = (bs "invalid " ++ t)%list.
Proof.
  intros M (t & E). rewrite cc_error_text_is in E. destruct key; [discriminate E|]. cbn [app] in E. rewrite app_assoc in E.
  assert (H : nth_error ((bs msg ++ bs "ValidationError") ++ bs "." ++ field ++
     match idx with Some i => bs "[" ++ i ++ bs "]" | None => [] end ++ bs ": " ++ reason ++
     match cause with Some c => bs " | caused by " ++ c | None => [] end)%list 7 = nth_error (bs "invalid " ++ t)%list 7) by (now rewrite E).
  assert (Hl : (7 < List.length (bs msg ++ bs "ValidationError"))%nat) by (rewrite app_length; change (List.length (bs "ValidationError")) with 15%nat; lia).
  rewrite (nth_error_app1 (bs msg ++ bs "ValidationError")) in H by exact Hl. change (nth_error (bs "invalid " ++ t)%list 7) with (Some 32%N) in H.
  apply nth_error_In in H. apply in_app_iff in H. destruct H as [H|H].
  - unfold ident in M. rewrite Forall_forall in M. specialize (M _ H). unfold ident_char in M. lia.
  - cbn in H. repeat (destruct H as [H|H]; [discriminate|]). exact H.
Qed.
