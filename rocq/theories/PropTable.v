(** C57: what rule_comparison.md says of the languages. *)
From Verif Require Import Base Num Rules Types Iface Checker GoSem Outcome Java Cc Py HarnessMainSpec Wt Suite TableSpec TableLangs TableEx.
Import ListNotations.
Local Open Scope string_scope.

(** Some program in the language [l] has a rule of the row [x] that decides about some message: for some libraries there are
    message types that protoc accepts and a message of one of them that the program accepts with the rules of the row and rejects
    without them, or the other way round. *)
Definition implements (l : lang) (x : row) : Prop :=
  exists w sc n m, wf_schema sc /\ (exists d, find_msg sc n = Some d /\ wt_msg sc d m) /\ decides w l x sc n m.

(** A language implements the rules of exactly the rows that are ticked in the table and of the four cells [overlooked]. *)
Theorem comparison_table l x : implements l x <-> ticked l x = true \/ overlooked l x = true.
Proof.
  split.
  - intros (w & sc & n & m & _ & _ & D). destruct (ticked l x) eqn:T; auto. destruct (overlooked l x) eqn:O; auto.
    elim (no_difference w l x sc n m T O D).
  - intros H. destruct (some_difference l x H) as [D P]. apply decidesb_sound in D. apply properb_sound in P.
    destruct (table_case_of l x) as [sc m]. destruct P as [W T]. now exists table_world, sc, "M", m.
Qed.
Print Assumptions comparison_table.

(** The table is right about Go, Java and Python ... *)
Theorem comparison_table_right l x : l <> LCc -> (implements l x <-> ticked l x = true).
Proof.
  intros N. rewrite comparison_table. split; auto. intros [H|H]; auto. destruct l; try discriminate H. now elim N.
Qed.
Print Assumptions comparison_table_right.

(** ... and wrong about C++: its code obeys the rules for the items of lists, the keys and the values of maps, and for the
    presence of timestamps. *)
Theorem comparison_table_refuted : ~ (forall l x, implements l x <-> ticked l x = true).
Proof.
  intros H. assert (I : implements LCc ItemRules) by (apply comparison_table; right; reflexivity). apply H in I. discriminate I.
Qed.
Print Assumptions comparison_table_refuted.
Theorem comparison_table_wrong l x : ticked l x = false -> implements l x ->
  l = LCc /\ (x = ItemRules \/ x = KeyRules \/ x = ValueRules \/ x = TsRequired).
Proof.
  intros T I. apply comparison_table in I. destruct I as [I|I]; [congruence|]. destruct l, x; try discriminate I; auto.
Qed.
Print Assumptions comparison_table_wrong.

(** What becomes of a rule in a cell that is not ticked, for all libraries, message types and messages: a program in C++ or Java
    either throws the exception for what is not implemented or goes on as if the rule was not there.  One in Python goes on as if
    the rule was not there, unless there would be no rule left in that place, which it does not survive. *)
Theorem unticked_rules w l x sc n m a b : ticked l x = false -> overlooked l x = false ->
  says w l sc n m = Some a -> says w l (without x sc) n m = Some b ->
  a = b \/ (l <> LPython /\ a = Unimplemented) \/ (l = LPython /\ b = Crashes).
Proof. exact (not_checked w l x sc n m a b). Qed.
Print Assumptions unticked_rules.

(** ** The hypotheses are met *)

(** Both happen: C++ throws for an e-mail address that is present, and Python accepts the sparse map that Go rejects. *)
Example unticked_email : let '(sc, m) := table_case Email in
  ticked LCc Email = false /\ overlooked LCc Email = false /\
  says table_world LCc sc "M" m = Some Unimplemented /\ says table_world LCc (without Email sc) "M" m = Some Passes /\
  says table_world LGo sc "M" m = Some Rejects /\ says table_world LGo (without Email sc) "M" m = Some Passes.
Proof. vm_compute. repeat split. Qed.
Example unticked_sparse : let '(sc, m) := table_case NoSparse in
  says table_world LPython sc "M" m = Some Passes /\ says table_world LPython (without NoSparse sc) "M" m = Some Passes /\
  says table_world LGo sc "M" m = Some Rejects /\ says table_world LGo (without NoSparse sc) "M" m = Some Passes.
Proof. vm_compute. repeat split. Qed.
(** The four cells. *)
Example overlooked_cells : forall x, In x [ItemRules; KeyRules; ValueRules; TsRequired] ->
  let '(sc, m) := table_case_of LCc x in
  says table_world LCc sc "M" m = Some Rejects /\ says table_world LCc (without x sc) "M" m = Some Passes.
Proof. intros x [<-|[<-|[<-|[<-|[]]]]]; vm_compute; split; reflexivity. Qed.
(** A rule may as well make a program accept more: [disabled] and [skip]. *)
Example accepting_rows : forall l x, x = Disabled \/ x = Skip ->
  let '(sc, m) := table_case_of l x in says table_world l sc "M" m = Some Passes /\ says table_world l (without x sc) "M" m = Some Rejects.
Proof. intros l x [-> | ->]; destruct l; vm_compute; split; reflexivity. Qed.
