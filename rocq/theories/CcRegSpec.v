(** What the registry of C++ validators is supposed to amount to. *)
From Verif Require Import Base Rules Types.

(** The schema in which only the messages [ds] have validation code. *)
Definition restrict (ds : list msgdesc) (sc : schema) : schema :=
  mkSchema (map (fun d => if existsb (fun d' => String.eqb (md_name d) (md_name d')) ds then d
                          else mkMsg (md_name d) (md_fields d) (md_oneofs d) (md_disabled d) MNone) (sc_msgs sc))
    (sc_enums sc) (sc_top sc).
(** The messages [ds] are messages of [sc], and a name means one message. *)
Definition part_of (ds : list msgdesc) (sc : schema) : Prop := forall d, In d ds -> find_msg sc (md_name d) = Some d.
