(** Model of [Config.__repr__] (/repo/vermin/config.py:61-88). *)
From Verif Require Import PyBase Utility RulesData Rules Config.

(** [str(bool)], as [str.format] uses it in config.py:82-88. *)
Definition bool_str (b : bool) : string := if b then "True" else "False".

(** [repr] of one target, a pair of exactness and version as [parse_target] returns it
    (utility.py:191). Simplified: a target added by [add_target] as a version tuple is a list
    (config.py:411-412) and would be shown between square brackets. *)
Definition target_repr (t : target) : string :=
  "(" +++ bool_str (fst t) +++ ", (" +++ z_str (fst (snd t)) +++ ", " +++ z_str (snd (snd t)) +++ "))".

(** [str] of the list of targets (config.py:87). *)
Definition targets_repr (l : list target) : string :=
  "[" +++ join ", " (map target_repr l) +++ "]".

(** config.py:61-88 [__repr__]. [order] is the order in which Python lists a set ([list(set)] in
    config.py:85); the class is [Config] itself. *)
Definition config_repr (order : list string -> list string) (c : config) : string :=
  "Config(" +++ nl +++
  "  quiet = " +++ bool_str (c_quiet c) +++ nl +++
  "  verbose = " +++ z_str (c_verbose c) +++ nl +++
  "  print_visits = " +++ bool_str (c_print_visits c) +++ nl +++
  "  processes = " +++ z_str (c_processes c) +++ nl +++
  "  ignore_incomp = " +++ bool_str (c_ignore_incomp c) +++ nl +++
  "  pessimistic = " +++ bool_str (c_pessimistic c) +++ nl +++
  "  show_tips = " +++ bool_str (c_show_tips c) +++ nl +++
  "  analyze_hidden = " +++ bool_str (c_analyze_hidden c) +++ nl +++
  "  exclusions = " +++ list_repr (exclusions c) +++ nl +++
  "  exclusion_regex = " +++ list_repr (exclusion_regex c) +++ nl +++
  "  make_paths_absolute = " +++ bool_str (c_make_paths_absolute c) +++ nl +++
  "  backports = " +++ list_repr (order (c_backports c)) +++ nl +++
  "  features = " +++ list_repr (order (c_features c)) +++ nl +++
  "  targets = " +++ targets_repr (c_targets c) +++ nl +++
  "  eval_annotations = " +++ bool_str (c_eval_annotations c) +++ nl +++
  "  only_show_violations = " +++ bool_str (c_only_show_violations c) +++ nl +++
  "  parse_comments = " +++ bool_str (c_parse_comments c) +++ nl +++
  "  scan_symlink_folders = " +++ bool_str (c_scan_symlink_folders c) +++ nl +++
  "  format = " +++ fmt_name (c_format c) +++ nl +++
  ")".
