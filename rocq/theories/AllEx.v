(** A schema and messages in the fragment of AllSpec.v. *)
From Coq Require Import Floats.SpecFloat Lia.
From Verif Require Import Base Utf8 Num Rules Types Time Iface Checker GoIR GoGen Regex Known GoSem Spec SpecErr
  Meaning LitSpec Values Outcome BaseFacts Wt WtDec WtMsgDec KnownFacts Setting GoFit GoEx Example JavaEx CcEx CcSpec Py PySpec PyEx AllSpec.

Definition i_rules (k : numkind) (r : num_rules) : field_rules := FR None (Some (RNum k r)).
Definition ex5_line : msgdesc := mkMsg "Line"
  [mkField "Sku" (FOne TString) (s_rules (with_prefix (bs "sku-")));
   mkField "Count" (FOne (TNum KInt32)) (i_rules KInt32 (mkNumRules None (Some (NI 100)) None (Some (NI 0)) None [] [NI 13] None))]
  [] false MBoth.
Definition ex5_order : msgdesc := mkMsg "Order"
  [mkField "Id" (FOne (TNum KInt64)) (i_rules KInt64 (mkNumRules None None None None (Some (NI 1000)) [] [] None));
   mkField "Kind" (FOne (TNum KSInt32)) (i_rules KSInt32 (mkNumRules None None None None None [NI 1; NI (-1)] [] (Some true)));
   mkField "Name" (FOne TString) (s_rules (min_len 2));
   mkField "Agreed" (FOne TBool) (FR None (Some (RBool (Some true))));
   mkField "Color" (FOne (TEnum "Color")) (FR None (Some (REnum (mkEnumRules None (Some true) [] [0%Z]))));
   mkField "First" (FOne (TMsg "Line")) (FR (Some (mkMessageRules None (Some true))) None);
   mkField "Lines" (FRep (TMsg "Line")) (FR None (Some (RRepeated (mkRepRules (Some 1%N) (Some 3%N) None None None))));
   mkField "Tags" (FRep TString) (FR None (Some (RRepeated (mkRepRules None None (Some true) (Some (s_rules (min_len 1))) None))));
   mkField "Extra" (FMap TString (TMsg "Line")) (FR None (Some (RMap (mkMapRules (Some 1%N) None None None None None))));
   mkField "Previous" (FOne (TMsg "Order")) fr_none]
  [mkOneof "Contact"
     [mkField "Phone" (FOne TString) (s_rules (with_prefix (bs "+")));
      mkField "Meet" (FOne (TMsg "Line")) fr_none] (Some true)]
  false MBoth.
Definition ex5_schema : schema :=
  mkSchema [ex5_order; ex5_line] [mkEnum "Color" [0; 1; 2]%Z] ["Order"; "Line"]%string.
Lemma ex5_checks : check_schema re_any ex5_schema = Some ex5_schema.
Proof. vm_compute. reflexivity. Qed.

Definition a_line (sku : bytes) (n : Z) : msgval := MV [("Sku", VStr sku); ("Count", VNum (NI n))]%string [].
Definition an_order (id kind : Z) (name : bytes) (ok : bool) (color : Z) (first : option msgval) (lines : list msgval)
    (tags : list bytes) (extra : list (bytes * msgval)) (prev : option msgval) (contact : option (string * value)) : msgval :=
  MV [("Id", VNum (NI id)); ("Kind", VNum (NI kind)); ("Name", VStr name); ("Agreed", VBool ok); ("Color", VEnum color);
      ("First", VMsg first); ("Lines", VList (map (fun m => VMsg (Some m)) lines)); ("Tags", VList (map VStr tags));
      ("Extra", VMap (map (fun p => (VStr (fst p), VMsg (Some (snd p)))) extra)); ("Previous", VMsg prev)]%string
     [("Contact"%string, contact)].
Definition ex5_first : msgval :=
  an_order 1000 0 (bs "xy") true 1 (Some (a_line (bs "sku-1") 1)) [a_line (bs "sku-2") 12] [bs "a"]
    [(bs "k", a_line (bs "sku-3") 99)] None (Some ("Phone"%string, VStr (bs "+1"))).
Definition ex5_good : msgval :=
  an_order 2000 (-1) (bs "xyz") true 2 (Some (a_line (bs "sku-1") 1)) [a_line (bs "sku-2") 12; a_line (bs "sku-4") 14] [bs "a"; bs "b"]
    [(bs "k", a_line (bs "sku-3") 99)] (Some ex5_first) (Some ("Meet"%string, VMsg (Some (a_line (bs "sku-5") 2)))).
(** The violation is deep inside. *)
Definition ex5_bad : msgval :=
  an_order 2000 (-1) (bs "xyz") true 2 (Some (a_line (bs "sku-1") 1)) [a_line (bs "sku-2") 12; a_line (bs "sku-4") 13] [bs "a"; bs "b"]
    [(bs "k", a_line (bs "sku-3") 99)] (Some ex5_first) (Some ("Meet"%string, VMsg (Some (a_line (bs "sku-5") 2)))).

Lemma ex5_good_msg : message ex5_schema "Order" ex5_order ex5_good.
Proof. constructor; [reflexivity|reflexivity|]. apply (wt_msgb_sound _ 6). vm_compute. reflexivity. Qed.
Lemma ex5_bad_msg : message ex5_schema "Order" ex5_order ex5_bad.
Proof. constructor; [reflexivity|reflexivity|]. apply (wt_msgb_sound _ 6). vm_compute. reflexivity. Qed.

(** ** The fragment *)
Definition common_textb (s : bytes) : bool :=
  forallb (fun c => (31 <? c) && (c <? 127) && negb (c =? 34) && negb (c =? 39) && negb (c =? 92) && negb (c =? 63))%N s && negb (bytes_eqb s []).
Lemma common_textb_sound s : common_textb s = true -> common_text s.
Proof.
  unfold common_textb. rewrite andb_true_iff, forallb_forall, negb_true_iff. intros [H N]. split.
  - apply Forall_forall. intros c I. specialize (H c I). rewrite !andb_true_iff, !negb_true_iff, !N.ltb_lt, !N.eqb_neq in H. lia.
  - intros ->. discriminate N.
Qed.

Ltac co_size := intros ? [= <-]; split; reflexivity.
Ltac co_nodup := repeat (apply NoDup_cons; [cbn [In]; intuition discriminate|]); apply NoDup_nil.
Ltac co_num := split; [cbn; tauto|]; split; [some_cases; eexists; (split; [reflexivity|]); (split; [reflexivity|]); discriminate|];
  (split; [co_nodup|]); (split; [co_nodup|]); discriminate.
Ltac co_str := split; [some_cases; apply common_textb_sound; vm_compute; reflexivity|];
  (split; [repeat (apply Forall_cons; [first [discriminate|co_size]|]); apply Forall_nil|]);
  (split; [co_nodup|]); (split; [co_nodup|]); (split; reflexivity).
Ltac not_idle := let H := fresh in intros H; cbn in H; 
  repeat match goal with
  | K : _ /\ _ |- _ => destruct K
  | K : _ \/ _ |- _ => destruct K
  | K : Forall _ (_ :: _) |- _ => inversion_clear K
  | K : no_size _ |- _ => destruct K
  | K : no_text _ |- _ => destruct K
  end; try discriminate; try contradiction.
Ltac co_rule := split; [not_idle|]; cbn; first [discriminate | split; [reflexivity|co_num] | co_str
  | split; [vm_compute; discriminate|]; (split; [some_cases; eexists; split; [reflexivity|cbn; tauto]|]); (split; [co_nodup|]); (split; [co_nodup|]); discriminate ].
Ltac co_elem := cbn [common_elem inner]; first
  [ exact I
  | split; [co_rule|first [discriminate|intros _; (split; [first [intros ? ? [= <- <-]; split; reflexivity|intros ? ?; discriminate]|cbn; first [discriminate|tauto]])]]
  | split; [reflexivity|]; (split; [eexists; reflexivity|]); (split; [cbn; intuition discriminate|]); intros [? ?]; discriminate ].
Ltac co_field := cbn [common_field f_type f_rules fr_none s_rules i_rules]; first
  [ co_elem
  | (split; [first [discriminate|co_size]|]); (split; [first [discriminate|co_size]|]); first
    [ (split; [first [discriminate|intros _; left; reflexivity]|]); (split; [cbn; intuition discriminate|]); cbn [r_items]; co_elem
    | (split; [cbn; intuition discriminate|]); (split; [discriminate|split; reflexivity]) ] ].
Lemma ex5_common : common ex5_schema.
Proof.
  split.
  - intros e [<-|[]]. repeat (apply Forall_cons; [cbn; lia|]). apply Forall_nil.
  - intros d Hd. assert (K : Forall (fun f => enum_known ex5_schema (f_type f)) (all_fields d)).
    { apply Forall_forall. intros f Hf. apply enum_knownb_sound. in_fields Hd; in_fields Hf; vm_compute; reflexivity. }
    split; [in_fields Hd; reflexivity|]. split; [|split; [in_fields Hd; discriminate|split; [exact K|]]]; clear K.
    2:{ intros o f mr r Ho Hf E. in_fields Hd; in_fields Ho; in_fields Hf; try discriminate E; injection E as <- <-; discriminate. }
    apply Forall_forall. intros f Hf. in_fields Hd; in_fields Hf. all: co_field.
Qed.

Lemma ex5_setting : common_setting re_any ex5_schema ex5_schema ex_orc ex_pl ex_pn.
Proof.
  assert (P : package re_any ex5_schema ex5_schema) by (apply packageb_sound; vm_compute; reflexivity).
  destruct P. constructor; auto using ex_orc_ok, ex5_common.
Qed.

(** ** The values *)
Ltac co_val := split; [first [discriminate|intros _; exact I|intros _; discriminate]|];
  split; [first [discriminate|intros _; eexists; (split; [reflexivity|]); apply ascii_utf8; vm_compute; reflexivity]|];
  first [discriminate|intros ? [= <-] _; eexists; reflexivity].
Lemma line_values sku n : common_textb sku = true -> common_values ex5_schema "Line" (a_line sku n).
Proof.
  intros U. apply common_textb_sound in U. destruct U as [U _].
  assert (V : valid_utf8 sku).
  { apply ascii_utf8. apply forallb_forall. intros c I. rewrite Forall_forall in U. specialize (U c I). apply N.ltb_lt. lia. }
  apply ev_active with ex5_line; [reflexivity| |intros o f v []].
  intros f v Hf Hv. in_fields Hf; cbn in Hv; injection Hv as <-.
  all: apply ev_one, ev_leaf; [|discriminate].
  - split; [discriminate|]. split; [intros _; eexists; split; [reflexivity|exact V]|discriminate].
  - co_val.
Qed.
Ltac co_all tac := 
  let leaf := apply ev_leaf; [co_val|first [discriminate|intros ? ? [= <-] [= <-] _; first [apply line_values; vm_compute; reflexivity|tac]]] in first
  [ apply ev_one; leaf
  | apply ev_rep; let x := fresh in let H := fresh in intros x H; in_fields H; leaf
  | apply ev_map; let x := fresh in let y := fresh in let H := fresh in
      intros x y H; in_fields H; injection H as <- <-; split; leaf ].
Ltac co_msg tac := apply ev_active with ex5_order; [reflexivity| |];
  [ let f := fresh in let v := fresh in let Hf := fresh in let Hv := fresh in
    intros f v Hf Hv; in_fields Hf; vm_compute in Hv; injection Hv as <-; cbn [f_type f_rules]; co_all tac
  | let o := fresh in let f := fresh in let v := fresh in let Ho := fresh in let Hf := fresh in let Hv := fresh in
    intros o f v Ho Hf Hv; in_fields Ho; in_fields Hf; vm_compute in Hv; try discriminate Hv; injection Hv as <-; cbn [f_type f_rules]; co_all tac ].
Lemma ex5_first_values : common_values ex5_schema "Order" ex5_first.
Proof. co_msg fail. Qed.
Lemma ex5_good_values : common_values ex5_schema "Order" ex5_good.
Proof. co_msg ltac:(exact ex5_first_values). Qed.
Lemma ex5_bad_values : common_values ex5_schema "Order" ex5_bad.
Proof. co_msg ltac:(exact ex5_first_values). Qed.
