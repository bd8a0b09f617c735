(** Vocabulary shared by the model and the specifications: error reasons, element
    indexes, and the answers of the unmodelled standard library. *)
From Verif Require Import Base Num Rules Types.

(** Arguments of the variadic [err]/[errCause]/[errIdx] template functions, which are
    concatenated by [fmt.Sprint] (register.go:140). *)
Inductive piece :=
| PStr (s : string)
| PNat (n : N)              (* uint64 *)
| PNum (n : num)
| PBool (b : bool)
| PInt (z : Z)
| PText (s : bytes)         (* a string printed as is *)
| PLit (s : bytes)          (* (lit s) : %q *)
| PByteStr (s : bytes)      (* (byteStr s) *)
| PBytes (s : bytes)        (* a []byte printed with %v *)
| PNums (l : list num)
| PTexts (l : list bytes)
| PBytess (l : list bytes)
| PInts (l : list Z)
| PDur (d : sn)             (* (durStr d) *)
| PDurs (l : list sn)
| PTs (t : sn).             (* (tsStr t) *)

(** What [%v] prints after the field name. *)
Inductive ixval := IxN (n : nat) | IxV (v : value).

(** What the standard library computes and is not modelled: user regular expressions,
    [net.ParseIP] (16-byte form), [mail.ParseAddress] (its Address), [url.Parse] (its
    IsAbs), and the clock, which is read as one instant per call of Validate. *)
Record oracles := mkOracles {
  o_match : bytes -> bytes -> bool;
  o_parse_ip : bytes -> option bytes;
  o_mail : bytes -> option bytes;
  o_url : bytes -> option bool;
  o_now : Z }.

(** The texts of the patterns behind [well_known_regex] (regex_map, module/checker.go:16-27). *)
Definition re_header_name : bytes :=
  bs "^:?[0-9a-zA-Z!#$%&'*+-.^_|~" ++ [0x60%N] ++ bs "]+$".
Definition re_header_value : bytes :=
  bs "^[^" ++ [0%N] ++ bs "-" ++ [8; 0x0A]%N ++ bs "-" ++ [0x1F; 0x7F]%N ++ bs "]*$".
Definition re_header_string : bytes := bs "^[^" ++ [0; 0x0A; 0x0D]%N ++ bs "]*$".

