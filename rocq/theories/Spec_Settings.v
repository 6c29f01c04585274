(** Specification for C62: which calls concern which setting of a Config. *)
From Verif Require Import PyBase Utility RulesData Rules Config.

(** What a Config can be asked for. *)
Inductive setting : Type :=
| SQuiet | SVerbose | SPrintVisits | SProcesses | SIgnoreIncomp | SPessimistic | SShowTips | SHidden
| SExclusions | SExclusionPatterns | SAbsolute | SBackports | SFeatures | STargets | SEvalAnnotations
| SViolations | SParseComments | SSymlinks | SFormat.

(** Answers of different kinds. *)
Inductive value : Type :=
| VBool (b : bool) | VInt (n : Z) | VNames (l : list string) | VTargets (l : list target) | VFormat (f : fmt).

(** The answer of the configuration. *)
Definition answer (c : config) (x : setting) : value :=
  match x with
  | SQuiet => VBool (c_quiet c)
  | SVerbose => VInt (c_verbose c)
  | SPrintVisits => VBool (c_print_visits c)
  | SProcesses => VInt (c_processes c)
  | SIgnoreIncomp => VBool (c_ignore_incomp c)
  | SPessimistic => VBool (c_pessimistic c)
  | SShowTips => VBool (c_show_tips c)
  | SHidden => VBool (c_analyze_hidden c)
  | SExclusions => VNames (exclusions c)
  | SExclusionPatterns => VNames (exclusion_regex c)
  | SAbsolute => VBool (c_make_paths_absolute c)
  | SBackports => VNames (c_backports c)
  | SFeatures => VNames (c_features c)
  | STargets => VTargets (c_targets c)
  | SEvalAnnotations => VBool (c_eval_annotations c)
  | SViolations => VBool (c_only_show_violations c)
  | SParseComments => VBool (c_parse_comments c)
  | SSymlinks => VBool (c_scan_symlink_folders c)
  | SFormat => VFormat (c_format c)
  end.

(** The call is about the setting. Replacing or resetting the whole configuration is about all of
    them; choosing the parsable format is also about verbosity, incompatible versions and tips. *)
Inductive concerns : cmd -> setting -> Prop :=
| cn_quiet b : concerns (CmdQuiet b) SQuiet
| cn_verbose n : concerns (CmdVerbose n) SVerbose
| cn_visits b : concerns (CmdPrintVisits b) SPrintVisits
| cn_processes p : concerns (CmdProcesses p) SProcesses
| cn_incomp b : concerns (CmdIgnoreIncomp b) SIgnoreIncomp
| cn_pessimistic b : concerns (CmdPessimistic b) SPessimistic
| cn_tips b : concerns (CmdShowTips b) SShowTips
| cn_hidden b : concerns (CmdHidden b) SHidden
| cn_exclusion n : concerns (CmdAddExclusion n) SExclusions
| cn_exclusion_file f : concerns (CmdAddExclusionFile f) SExclusions
| cn_no_exclusions : concerns CmdClearExclusions SExclusions
| cn_pattern p : concerns (CmdAddExclusionRegex p) SExclusionPatterns
| cn_no_patterns : concerns CmdClearExclusionRegex SExclusionPatterns
| cn_absolute b : concerns (CmdAbsolute b) SAbsolute
| cn_backport n : concerns (CmdAddBackport n) SBackports
| cn_no_backports : concerns CmdClearBackports SBackports
| cn_feature n : concerns (CmdEnableFeature n) SFeatures
| cn_no_features : concerns CmdClearFeatures SFeatures
| cn_target t : concerns (CmdAddTarget t) STargets
| cn_no_targets : concerns CmdClearTargets STargets
| cn_annotations b : concerns (CmdEvalAnnotations b) SEvalAnnotations
| cn_violations b : concerns (CmdViolations b) SViolations
| cn_comments b : concerns (CmdParseComments b) SParseComments
| cn_symlinks b : concerns (CmdSymlinks b) SSymlinks
| cn_format f : concerns (CmdFormat f) SFormat
| cn_parsable x : In x [SVerbose; SIgnoreIncomp; SShowTips] -> concerns (CmdFormat FParsable) x
| cn_override o x : concerns (CmdOverrideFrom o) x
| cn_reset x : concerns CmdReset x.

(** The call gives the setting this value; [cpus] is the number of processors. A number of
    processes that is not positive stands for the number of processors. *)
Inductive gives (cpus : Z) : cmd -> setting -> value -> Prop :=
| gv_quiet b : gives cpus (CmdQuiet b) SQuiet (VBool b)
| gv_verbose n : gives cpus (CmdVerbose n) SVerbose (VInt n)
| gv_visits b : gives cpus (CmdPrintVisits b) SPrintVisits (VBool b)
| gv_processes p : 0 < p -> gives cpus (CmdProcesses p) SProcesses (VInt p)
| gv_cpus p : p <= 0 -> gives cpus (CmdProcesses p) SProcesses (VInt cpus)
| gv_incomp b : gives cpus (CmdIgnoreIncomp b) SIgnoreIncomp (VBool b)
| gv_pessimistic b : gives cpus (CmdPessimistic b) SPessimistic (VBool b)
| gv_tips b : gives cpus (CmdShowTips b) SShowTips (VBool b)
| gv_hidden b : gives cpus (CmdHidden b) SHidden (VBool b)
| gv_no_exclusions : gives cpus CmdClearExclusions SExclusions (VNames [])
| gv_no_patterns : gives cpus CmdClearExclusionRegex SExclusionPatterns (VNames [])
| gv_absolute b : gives cpus (CmdAbsolute b) SAbsolute (VBool b)
| gv_no_backports : gives cpus CmdClearBackports SBackports (VNames [])
| gv_no_features : gives cpus CmdClearFeatures SFeatures (VNames [])
| gv_no_targets : gives cpus CmdClearTargets STargets (VTargets [])
| gv_annotations b : gives cpus (CmdEvalAnnotations b) SEvalAnnotations (VBool b)
| gv_violations b : gives cpus (CmdViolations b) SViolations (VBool b)
| gv_comments b : gives cpus (CmdParseComments b) SParseComments (VBool b)
| gv_symlinks b : gives cpus (CmdSymlinks b) SSymlinks (VBool b)
| gv_format f : gives cpus (CmdFormat f) SFormat (VFormat f)
| gv_parsable_incomp : gives cpus (CmdFormat FParsable) SIgnoreIncomp (VBool true)
| gv_parsable_tips : gives cpus (CmdFormat FParsable) SShowTips (VBool false).

(** A history makes [p] an exclusion pattern, or forgets the patterns; a pattern that does not
    compile is refused. *)
Definition adds_pattern (re_ok : string -> bool) (m : cmd) (p : string) : Prop :=
  match m with
  | CmdAddExclusionRegex q => q = p /\ re_ok p = true
  | CmdOverrideFrom o => In p (c_exclusion_regex_set o)
  | _ => False
  end.
Definition forgets_patterns (m : cmd) : Prop :=
  match m with CmdClearExclusionRegex | CmdReset | CmdOverrideFrom _ => True | _ => False end.

