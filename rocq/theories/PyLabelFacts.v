(** The names in the texts of Python tell the field. *)
From Coq Require Import Lia.
From Verif Require Import Base BaseFacts Types ErrTextFacts Report PyReport PyReportSpec.

Lemma bs_cat a b : bs (a ++ b)%string = (bs a ++ bs b)%list.
Proof. induction a as [|c a IH]; [reflexivity|]. unfold bs in *. cbn. now rewrite IH. Qed.

Lemma out c (s a b : bytes) : ~ In c s -> s = (a ++ c :: b)%list -> False.
Proof. intros N ->. apply N. apply in_or_app. right. now left. Qed.
Lemma ident_out s : ident s -> ~ In 46%N (bs s) /\ ~ In 91%N (bs s) /\ ~ In 32%N (bs s).
Proof.
  intros F. unfold ident in F. rewrite Forall_forall in F.
  repeat split; intros I; specialize (F _ I); unfold ident_char in F; lia.
Qed.
Lemma ends (a b x y : bytes) (u v : N) : (a ++ x ++ [u] = b ++ y ++ [v])%list -> u = v.
Proof. rewrite !app_assoc. intros H. apply app_inj_tail in H. tauto. Qed.

Lemma label_tells l l' : label_ident l -> label_ident l' ->
  (label_text l = label_text l' <-> l = l' \/ mistaken l l' \/ mistaken l' l).
Proof.
  intros I I'. split.
  2:{ intros [->|[H|H]]; [reflexivity| |]; destruct H; reflexivity. }
  intros E. apply (f_equal bs) in E.
  destruct l, l'; cbn [label_ident label_text] in *; rewrite ?bs_cat in E;
    try (left; reflexivity);
    try (destruct (ident_out _ I) as (A1 & A2 & A3)); try (destruct (ident_out _ I') as (B1 & B2 & B3)).
  all: change (bs "p.") with [112; 46]%N in E || idtac; change (bs "[key]") with [91; 107; 101; 121; 93]%N in E || idtac;
    change (bs ".value") with [46; 118; 97; 108; 117; 101]%N in E || idtac; change (bs "Oneof ") with [79; 110; 101; 111; 102; 32]%N in E || idtac;
    change (bs "item") with [105; 116; 101; 109]%N in E || idtac; change (bs "key") with [107; 101; 121]%N in E || idtac.
  all: cbn [app] in E.
  all: try (left; f_equal; apply bs_inj; first [exact E|congruence|injection E as E; exact E|injection E as E; eapply app_inv_tail; exact E]).
  all: try discriminate E.
  all: try (exfalso; first
    [ eapply (out 46%N _ [112%N]); [|cbn [app]; first [exact E|symmetry; exact E]]; assumption
    | eapply (out 32%N _ [79; 110; 101; 111; 102]%N); [|cbn [app]; first [exact E|symmetry; exact E]]; assumption
    | injection E as E; first [eapply (out 46%N); [|first [exact E|symmetry; exact E]]; assumption | eapply (out 91%N); [|first [exact E|symmetry; exact E]]; assumption]]).
  - right; right. apply (bs_inj f "item") in E. subst. constructor.
  - right; right. apply (bs_inj f "key") in E. subst. constructor.
  - exfalso. injection E as E. apply (ends _ _ [46; 118; 97; 108; 117]%N [91; 107; 101; 121]%N 101%N 93%N) in E. discriminate.
  - exfalso. injection E as E. symmetry in E. apply (ends _ _ [46; 118; 97; 108; 117]%N [91; 107; 101; 121]%N 101%N 93%N) in E. discriminate.
  - right; left. symmetry in E. apply (bs_inj f "item") in E. subst. constructor.
  - right; left. symmetry in E. apply (bs_inj f "key") in E. subst. constructor.
Qed.
