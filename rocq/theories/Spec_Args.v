(** Specifications for the command line (C19, C23-C27). *)
From Verif Require Import PyBase Utility RulesData Rules Config Paths Formats Arguments
  Spec_Base Spec_Utility Spec_Config.

(** An argument that does not look like an option. *)
Definition plain_arg (a : string) : Prop := match a with String c _ => c <> "-"%char | "" => True end.

(** The options without operand, and the configuration call each stands for (usage text,
    arguments.py:20-190). *)
Definition flag_options : list (string * cmd) :=
  [("--quiet", CmdQuiet true); ("-q", CmdQuiet true); ("--no-quiet", CmdQuiet false);
   ("--no-target", CmdClearTargets); ("--ignore", CmdIgnoreIncomp true); ("-i", CmdIgnoreIncomp true);
   ("--no-ignore", CmdIgnoreIncomp false); ("--dump", CmdPrintVisits true); ("-d", CmdPrintVisits true);
   ("--no-dump", CmdPrintVisits false); ("--hidden", CmdHidden true); ("--no-hidden", CmdHidden false);
   ("--show-tips", CmdShowTips true); ("--no-tips", CmdShowTips false); ("--no-exclude", CmdClearExclusions);
   ("--no-exclude-regex", CmdClearExclusionRegex); ("--make-paths-absolute", CmdAbsolute true);
   ("--no-make-paths-absolute", CmdAbsolute false); ("--no-backport", CmdClearBackports);
   ("--no-feature", CmdClearFeatures); ("--pessimistic", CmdPessimistic true);
   ("--no-pessimistic", CmdPessimistic false); ("--eval-annotations", CmdEvalAnnotations true);
   ("--no-eval-annotations", CmdEvalAnnotations false); ("--violations", CmdViolations true);
   ("--lint", CmdViolations true); ("--no-violations", CmdViolations false); ("--no-lint", CmdViolations false);
   ("--parse-comments", CmdParseComments true); ("--no-parse-comments", CmdParseComments false);
   ("--scan-symlink-folders", CmdSymlinks true); ("--no-symlink-folders", CmdSymlinks false)].

(** What an option asks for: a configuration call, the output format, the version listing, or the
    config file. *)
Inductive effect : Type :=
| ECmd (m : cmd)
| EFormat (f : fmt)
| EVersions
| EConfig (file : string).

Definition no_eq (x : string) : Prop := ~ In "="%char (list_ascii_of_string x).
Fixpoint vs (n : nat) : string := match n with O => "" | S k => String "v" (vs k) end.

(** [words] is an option with its operand, standing for [e]. *)
Inductive option_means (excl_file : string -> option (list string)) : list string -> effect -> Prop :=
| om_flag w m : In (w, m) flag_options -> option_means excl_file [w] (ECmd m)
| om_verbose n : (0 < n)%nat -> option_means excl_file [String "-" (vs n)] (ECmd (CmdVerbose (Z.of_nat n)))
| om_target p x : In p ["-t="; "--target="] -> no_eq x -> option_means excl_file [p +++ x] (ECmd (CmdAddTarget (TStr x)))
| om_processes p x n : In p ["-p="; "--processes="] -> no_eq x -> py_int x = Some n ->
    option_means excl_file [p +++ x] (ECmd (CmdProcesses n))
| om_versions : option_means excl_file ["--versions"] EVersions
| om_format w o f : In w ["--format"; "-f"] -> plain_arg o ->
    (lower o = "default" /\ f = FDefault) \/ (lower o = "parsable" /\ f = FParsable) ->
    option_means excl_file [w; o] (EFormat f)
| om_exclude o : plain_arg o -> option_means excl_file ["--exclude"; o] (ECmd (CmdAddExclusion o))
| om_exclude_file o : plain_arg o -> option_means excl_file ["--exclude-file"; o] (ECmd (CmdAddExclusionFile (excl_file o)))
| om_exclude_regex o : plain_arg o -> option_means excl_file ["--exclude-regex"; o] (ECmd (CmdAddExclusionRegex o))
| om_backport o : plain_arg o -> option_means excl_file ["--backport"; o] (ECmd (CmdAddBackport o))
| om_feature o : plain_arg o -> option_means excl_file ["--feature"; o] (ECmd (CmdEnableFeature o))
| om_config w o : In w ["--config-file"; "-c"] -> plain_arg o -> option_means excl_file [w; o] (EConfig o).

(** A command line as a list of options and other arguments, in any order. [INoConfig] is
    "--no-config-file", which the code reads as an option but keeps among the paths. *)
Inductive item : Type :=
| IOpt (words : list string) (e : effect)
| INoConfig
| IPath (p : string).

Definition item_ok (excl_file : string -> option (list string)) (i : item) : Prop :=
  match i with
  | IOpt w e => option_means excl_file w e
  | INoConfig => True
  | IPath p => plain_arg p
  end.

Definition item_words (i : item) : list string :=
  match i with IOpt w _ => w | INoConfig => ["--no-config-file"] | IPath p => [p] end.
Definition command_line (l : list item) : list string := flat_map item_words l.

(** Number of arguments that are options or operands. *)
Definition option_words (l : list item) : nat :=
  list_sum (map (fun i => match i with IOpt w _ => List.length w | _ => 0%nat end) l).

(** The configuration calls asked for, in order. *)
Definition item_cmds (i : item) : list cmd := match i with IOpt _ (ECmd m) => [m] | _ => [] end.
Definition cmds (l : list item) : list cmd := flat_map item_cmds l.

Definition wants_versions (l : list item) : Prop := exists w, In (IOpt w EVersions) l.
Definition wants_no_config (l : list item) : Prop := In INoConfig l.

(** The last one of a kind. *)
Definition last_format (l : list item) (o : option fmt) : Prop :=
  match o with
  | None => forall w f, ~ In (IOpt w (EFormat f)) l
  | Some f => exists a w b, l = a ++ IOpt w (EFormat f) :: b /\ forall w' f', ~ In (IOpt w' (EFormat f')) b
  end.
Definition last_config (l : list item) (o : option string) : Prop :=
  match o with
  | None => forall w f, ~ In (IOpt w (EConfig f)) l
  | Some f => exists a w b, l = a ++ IOpt w (EConfig f) :: b /\ forall w' f', ~ In (IOpt w' (EConfig f')) b
  end.

(** The call is valid for this configuration. *)
Definition accepted (re_ok : string -> bool) (c : config) (m : cmd) : Prop :=
  match m with
  | CmdAddTarget a => (List.length (c_targets c) < 2)%nat /\ exists t, arg_target a t
  | CmdAddBackport n => In n (map (fun e => fst (fst e)) backports_table)
  | CmdEnableFeature n => In n (map fst features_table)
  | CmdAddExclusionRegex p => re_ok p = true
  | CmdProcesses n => 0 < n
  | _ => True
  end.
Inductive all_accepted (cpus : Z) (re_ok : string -> bool) : config -> list cmd -> Prop :=
| aa_nil c : all_accepted cpus re_ok c []
| aa_cons c m l : accepted re_ok c m -> all_accepted cpus re_ok (run_cmd cpus re_ok c m) l ->
                  all_accepted cpus re_ok c (m :: l).

(** The configuration the options start from: what the config file in use says, or the given one.
    A file named on the command line is used instead of a detected one; "--no-config-file" disables
    detection. *)
Inductive base (cpus : Z) (re_ok : string -> bool) (cfg : string -> cfg_file) (cwd : string)
          (det : option string) (c : config) (l : list item) : config -> Prop :=
| base_argument f c' : last_config l (Some f) -> ~ wants_no_config l ->
    parse_file cpus re_ok (cfg (abspath cwd f)) = Some c' -> base cpus re_ok cfg cwd det c l (override_from c' c)
| base_disabled : last_config l None -> wants_no_config l -> base cpus re_ok cfg cwd det c l c
| base_detected f c' : last_config l None -> ~ wants_no_config l -> det = Some f ->
    parse_file cpus re_ok (cfg f) = Some c' -> base cpus re_ok cfg cwd det c l (override_from c' c)
| base_none : last_config l None -> ~ wants_no_config l -> det = None -> base cpus re_ok cfg cwd det c l c.

(** The format asked for on the command line is applied last. *)
Definition with_format (o : option fmt) (c : config) : config :=
  match o with Some f => set_format f c | None => c end.

(** The final checks: a configuration that is refused, and the one that is used. *)
Definition refused (c : config) : Prop :=
  (c_only_show_violations c = true /\ c_targets c = []) \/
  (c_only_show_violations c = false /\ c_quiet c = true /\ 0 < c_verbose c).
Definition used (c : config) : config :=
  if c_only_show_violations c then w_verbose (Z.max 2 (c_verbose c)) c else c.

(** Options that need an operand. *)
Definition needs_operand : list string :=
  ["--format"; "-f"; "--exclude"; "--exclude-file"; "--exclude-regex"; "--backport"; "--feature";
   "--config-file"; "-c"].
