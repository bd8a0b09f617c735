(** A test that a message is of its type, for examples. *)
From Coq Require Import Lia.
From Verif Require Import Base Num Rules Types Time Spec Wt.

Definition is_snb (d : sn) : bool :=
  ((- 2^63 <=? sn_s d) && (sn_s d <? 2^63) && (- 2^31 <=? sn_n d) && (sn_n d <? 2^31))%Z.

Section Dec.
Variable sc : schema.
Variable msgb : msgdesc -> msgval -> bool.
Hypothesis msgb_sound : forall d m, msgb d m = true -> wt_msg sc d m.

Definition plainb (e : etype) (v : value) : bool :=
  match e, v with
  | TNum k, VNum n => num_of_kind k n
  | TBool, VBool _ | TEnum _, VEnum _ | TAny, VAny _ => true
  | TString, VStr s | TBytes, VByt s => is_bytes s
  | TDur, VDur o | TTs, VTs o => match o with Some d => is_snb d | None => true end
  | TWrap _, VWrap None | TMsg _, VMsg None => true
  | _, _ => false
  end.
Definition wt_elemb (e : etype) (v : value) : bool :=
  match e, v with
  | TWrap w, VWrap (Some x) => plainb (wrapped_type w) x
  | TMsg n, VMsg (Some m) => match find_msg sc n with Some d => msgb d m | None => false end
  | _, _ => plainb e v
  end.
Definition wt_fieldb (t : ftype) (v : value) : bool :=
  match t, v with
  | FOne e, _ => wt_elemb e v
  | FRep e, VList l => forallb (wt_elemb e) l
  | FMap k w, VMap l => forallb (fun p => wt_elemb k (fst p) && wt_elemb w (snd p)) l
  | _, _ => false
  end.
Fixpoint wt_namedb (fs : list field) (vs : list (string * value)) : bool :=
  match fs, vs with
  | [], [] => true
  | f :: fs, (n, v) :: vs => String.eqb n (f_name f) && wt_fieldb (f_type f) v && wt_namedb fs vs
  | _, _ => false
  end.
Definition wt_oneofb (o : oneof) (s : option (string * value)) : bool :=
  match s with
  | None => true
  | Some (fn, v) => existsb (fun f => String.eqb fn (f_name f) && wt_fieldb (f_type f) v) (o_fields o)
  end.
Fixpoint wt_oneofsb (os : list oneof) (vs : list (string * option (string * value))) : bool :=
  match os, vs with
  | [], [] => true
  | o :: os, (n, s) :: vs => String.eqb n (o_name o) && wt_oneofb o s && wt_oneofsb os vs
  | _, _ => false
  end.
Definition wt_stepb (d : msgdesc) (m : msgval) : bool :=
  wt_namedb (md_fields d) (mv_fields m) && wt_oneofsb (md_oneofs d) (mv_oneofs m).

Lemma is_snb_sound d : is_snb d = true -> is_sn d.
Proof. unfold is_snb, is_sn. change (2^63)%Z with 9223372036854775808%Z. change (2^31)%Z with 2147483648%Z. lia. Qed.
Lemma plainb_sound e v : plainb e v = true -> wt_elem sc e v.
Proof.
  destruct e, v as [| | | | |[]|[]|o|[]|[]| |]; cbn; intros H; try discriminate; constructor; auto using is_snb_sound.
Qed.
Lemma wt_elemb_sound e v : wt_elemb e v = true -> wt_elem sc e v.
Proof.
  intros H. destruct e; try (now apply plainb_sound); destruct v as [| | | | |[m9|]|[x|]| | | | |]; try (now apply plainb_sound); cbn in H.
  - destruct (find_msg sc _) as [d|] eqn:E; [|discriminate]. apply wt_some with d; auto.
  - constructor. now apply plainb_sound.
Qed.
Lemma wt_fieldb_sound t v : wt_fieldb t v = true -> wt_field sc t v.
Proof.
  destruct t as [e|e|k w]; cbn; intros H; [constructor; now apply wt_elemb_sound| |]; destruct v; try discriminate; constructor;
    rewrite forallb_forall in H; apply Forall_forall; intros x Hx; specialize (H x Hx).
  - now apply wt_elemb_sound.
  - apply andb_true_iff in H. split; now apply wt_elemb_sound.
Qed.
Lemma wt_namedb_sound fs : forall vs, wt_namedb fs vs = true -> Forall2 (wt_named sc) fs vs.
Proof.
  induction fs as [|f fs IH]; intros [|[n v] vs]; cbn; intros H; try discriminate; constructor.
  - rewrite !andb_true_iff in H. destruct H as [[H1 H2] H3]. apply String.eqb_eq in H1. subst. constructor. now apply wt_fieldb_sound.
  - rewrite !andb_true_iff in H. apply IH. tauto.
Qed.
Lemma wt_oneofsb_sound os : forall vs, wt_oneofsb os vs = true -> Forall2 (wt_oneof sc) os vs.
Proof.
  induction os as [|o os IH]; intros [|[n s] vs]; cbn; intros H; try discriminate; constructor; rewrite !andb_true_iff in H; [|apply IH; tauto].
  destruct H as [[H1 H2] H3]. apply String.eqb_eq in H1. subst. destruct s as [[fn v]|]; [|constructor].
  cbn in H2. apply existsb_exists in H2. destruct H2 as (f & I & H2). apply andb_true_iff in H2. destruct H2 as [H2 H4].
  apply String.eqb_eq in H2. subst. constructor; auto. now apply wt_fieldb_sound.
Qed.
Lemma wt_stepb_sound d m : wt_stepb d m = true -> wt_msg sc d m.
Proof.
  destruct m as [fs os]. unfold wt_stepb. rewrite andb_true_iff. intros [H1 H2]. constructor; [now apply wt_namedb_sound|now apply wt_oneofsb_sound].
Qed.
End Dec.

Fixpoint wt_msgb (sc : schema) (fuel : nat) (d : msgdesc) (m : msgval) : bool :=
  match fuel with O => false | S k => wt_stepb sc (wt_msgb sc k) d m end.
Lemma wt_msgb_sound sc fuel : forall d m, wt_msgb sc fuel d m = true -> wt_msg sc d m.
Proof. induction fuel as [|k IH]; cbn [wt_msgb]; intros d m H; [discriminate|]. eapply wt_stepb_sound; eauto. Qed.
