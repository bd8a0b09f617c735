(** Descriptors and message values.

    Descriptors are what the plugin sees through protoc-gen-star (pgs): fields,
    their types, enums, oneofs, message options.  Names are the Go names that
    pgsgo derives (the name mangling itself is not modelled). *)
From Coq Require Import Floats.SpecFloat.
From Verif Require Import Base Num Rules.

(** google.protobuf.*Value wrapper messages. *)
Inductive wrapkind :=
| WkDouble | WkFloat | WkInt64 | WkUInt64 | WkInt32 | WkUInt32 | WkBool | WkString | WkBytes.

(** Type of a singular field or of a list/map element (pgs.FieldTypeElem).
    [TMsg] is an ordinary message, or a well-known type without rules of its
    own (Struct, Empty, ...). *)
Inductive etype :=
| TNum (k : numkind) | TBool | TString | TBytes | TEnum (e : string)
| TMsg (m : string) | TWrap (w : wrapkind) | TAny | TDur | TTs.

(** Type of a field (pgs.FieldType). *)
Inductive ftype := FOne (e : etype) | FRep (e : etype) | FMap (k v : etype).

Record field := mkField { f_name : string; f_type : ftype; f_rules : field_rules }.

Record oneof := mkOneof { o_name : string; o_fields : list field; o_required : option bool }.

(** Which validation methods the Go type of a message has: generated by this
    plugin ([MBoth]); generated by a plugin older than ValidateAll ([MLegacy],
    templates/go/message.go:17-18); none ([MNone]: foreign type, or
    [ignored] so that templates/goshared/msg.go:4 emits nothing). *)
Inductive methods := MBoth | MLegacy | MNone.

Record msgdesc := mkMsg {
  md_name : string;
  md_fields : list field;          (* NonOneOfFields, declaration order *)
  md_oneofs : list oneof;
  md_disabled : bool;              (* option (validate.disabled) *)
  md_methods : methods
}.

Record enumdesc := mkEnum { en_name : string; en_values : list Z }.

(** One Go package generated from one file: all messages ([AllMessages()], including
    nested ones and the embedded messages of other origins they refer to), the enums,
    and the names of the messages that are top-level ([Messages()]). *)
Record schema := mkSchema {
  sc_msgs : list msgdesc; sc_enums : list enumdesc; sc_top : list string }.

Definition find_msg (sc : schema) (n : string) : option msgdesc :=
  find (fun m => String.eqb n (md_name m)) (sc_msgs sc).
Definition find_enum (sc : schema) (n : string) : option enumdesc :=
  find (fun e => String.eqb n (en_name e)) (sc_enums sc).

(** All fields of a message in declaration order (pgs Message.Fields(); here
    plain fields first, then oneof members; the order only affects the order of
    package-level declarations). *)
Definition all_fields (m : msgdesc) : list field :=
  md_fields m ++ flat_map o_fields (md_oneofs m).

(** Go values of message fields.  Pointers are [option]. A map is given as the
    list of its entries in the order in which one particular [range] loop visits
    them. *)
Inductive value :=
| VNum (n : num)
| VBool (b : bool)
| VStr (s : bytes)
| VByt (s : bytes)
| VEnum (z : Z)
| VMsg (m : option msgval)
| VWrap (v : option value)       (* wrapper message: nil or its Value field *)
| VAny (url : option bytes)      (* nil or type_url *)
| VDur (d : option sn)
| VTs (t : option sn)
| VList (l : list value)
| VMap (l : list (value * value))
with msgval :=
| MV (fields : list (string * value)) (oneofs : list (string * option (string * value))).

Definition mv_fields (m : msgval) := match m with MV f _ => f end.
Definition mv_oneofs (m : msgval) := match m with MV _ o => o end.

(** The scalar type wrapped by a wrapper message (field "value"). *)
Definition wrapped_type (w : wrapkind) : etype :=
  match w with
  | WkDouble => TNum KDouble | WkFloat => TNum KFloat
  | WkInt64 => TNum KInt64 | WkUInt64 => TNum KUInt64
  | WkInt32 => TNum KInt32 | WkUInt32 => TNum KUInt32
  | WkBool => TBool | WkString => TString | WkBytes => TBytes
  end.

Definition is_embed (e : etype) : bool :=
  match e with TMsg _ | TWrap _ | TAny | TDur | TTs => true | _ => false end.
