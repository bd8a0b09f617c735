(** The rules that a field of a wrapper type can have: the condition that tells their type, the conditions of their checks, and those of the checks
    that their template has for values of other types. *)
From Verif Require Import Base PyLayoutSpec.
Definition wrapped_kinds : list (string * (list string * list string)) :=
  [("str(option_value.float)", (num_checks, [])); ("str(option_value.double)", (num_checks, []));
   ("str(option_value.int32)", (num_checks, [])); ("str(option_value.int64)", (num_checks, []));
   ("str(option_value.uint32)", (num_checks, [])); ("str(option_value.uint64)", (num_checks, []));
   ("str(option_value.bool)", (bool_checks,
     ["str(o.string) and o.string.HasField('const')"; "str(o.enum) and o.enum['const']"; "str(o.bytes) and o.bytes.HasField('const')"]));
   ("str(option_value.string)", (string_checks,
     ["str(o.bool) and o.bool['const'] != """""; "str(o.enum) and o.enum['const']"; "str(o.bytes) and o.bytes.HasField('const')"]));
   ("str(option_value.bytes)", (bytes_checks,
     ["str(o.string) and o.string.HasField('const')"; "str(o.bool) and o.bool['const'] != """""; "str(o.enum) and o.enum['const']"]))]%string.
