(** The common hypotheses of the theorems about generated Go code. *)
From Verif Require Import Base Rules Types Iface Checker GoGen GoSem Spec Wt.

(** [setting re_ok sc0 sc orc]: the plugin accepts the well-formed schema [sc0] ([re_ok] says
    which patterns compile) and generates code from [sc], its checked form; [sc] is in the
    fragment whose generated code is meaningful; [orc] is a sane standard library. *)
Record setting (re_ok : bytes -> bool) (sc0 sc : schema) (orc : oracles) : Prop := mkSetting {
  set_checked : check_schema re_ok sc0 = Some sc;
  set_wf : wf_schema sc0;
  set_sup : supported sc;
  set_orc : oracle_ok orc }.

(** [message sc n d m]: [m] is a message of the type [n], declared by [d], that has a Validate
    method. *)
Record message (sc : schema) (n : string) (d : msgdesc) (m : msgval) : Prop := mkMessage {
  msg_decl : find_msg sc n = Some d;
  msg_meth : has_methods d = true;
  msg_wt : wt_msg sc d m }.
