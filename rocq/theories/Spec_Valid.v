(** Specification for the configurations that come out of config files and command lines (C74). *)
From Verif Require Import PyBase Utility RulesData Rules Config Spec_Base Spec_Utility Spec_Config.

(** Values that make sense: at least one process; exclusions, backports and features once each; patterns that compile;
    backports and features that exist; at most two targets, in order, and each 2.0 or later and before 4.0. *)
Record valid (re_ok : string -> bool) (c : config) : Prop := {
  va_processes : 0 < c_processes c;
  va_exclusions : NoDup (c_exclusions_set c);
  va_regex : NoDup (c_exclusion_regex_set c) /\ Forall (fun r => re_ok r = true) (c_exclusion_regex_set c);
  va_backports : NoDup (c_backports c) /\ forall b, In b (c_backports c) -> In b (map (fun e => fst (fst e)) backports_table);
  va_features : NoDup (c_features c) /\ forall f, In f (c_features c) -> In f (map fst features_table);
  va_targets : sorted_by_version (c_targets c) /\ Forall (fun t : target => in_range (snd t)) (c_targets c)
}.

(** What a run that starts can count on besides. *)
Definition settled (c : config) : Prop :=
  (c_only_show_violations c = true -> c_targets c <> [] /\ 2 <= c_verbose c) /\
  (c_quiet c = true -> c_only_show_violations c = false -> c_verbose c <= 0).

(** The default for the verbosity is no negative number. *)
Definition calm (sec : section) : Prop := forall d n, sec_default sec "verbose" = Some d -> py_int d = Some n -> 0 <= n.
