(** Model of /repo/vermin/config.py (Config, its histories, files) and formats/__init__.py. *)
From Verif Require Import PyBase Utility RulesData Rules.

(** The two formats (formats/default_format.py, formats/parsable_format.py). *)
Inductive fmt : Set := FDefault | FParsable.
Definition fmt_eqb (a b : fmt) : bool :=
  match a, b with FDefault, FDefault => true | FParsable, FParsable => true | _, _ => false end.

(** formats/__init__.py:17-18 [names]. *)
Definition format_names : list string := map fst formats_table.

(** formats/__init__.py:20-25 [from_name]. *)
Definition from_name (n : string) : option fmt :=
  if String.eqb n "default" then Some FDefault
  else if String.eqb n "parsable" then Some FParsable
  else None.

(** formats/format.py:11-12 [name]. *)
Definition fmt_name (f : fmt) : string := match f with FDefault => "default" | FParsable => "parsable" end.

(** config.py:15-38: the attributes of a Config. Sets are duplicate-free lists; a compiled pattern is
    its source string. *)
Record config : Type := mkConfig {
  c_quiet : bool;
  c_verbose : Z;
  c_print_visits : bool;
  c_processes : Z;
  c_ignore_incomp : bool;
  c_pessimistic : bool;
  c_show_tips : bool;
  c_analyze_hidden : bool;
  c_exclusions_set : list string;
  c_exclusion_regex_set : list string;
  c_make_paths_absolute : bool;
  c_backports : list string;
  c_features : list string;
  c_targets : list target;
  c_eval_annotations : bool;
  c_only_show_violations : bool;
  c_parse_comments : bool;
  c_scan_symlink_folders : bool;
  c_format : fmt
}.

(** config.py:266-270: the attribute behind the quiet accessors, replaced. *)
Definition w_quiet (x : bool) (c : config) : config :=
  mkConfig x (c_verbose c) (c_print_visits c) (c_processes c) (c_ignore_incomp c) (c_pessimistic c) (c_show_tips c) (c_analyze_hidden c) (c_exclusions_set c) (c_exclusion_regex_set c) (c_make_paths_absolute c) (c_backports c) (c_features c) (c_targets c) (c_eval_annotations c) (c_only_show_violations c) (c_parse_comments c) (c_scan_symlink_folders c) (c_format c).
(** config.py:272-276: the attribute behind the verbose accessors, replaced. *)
Definition w_verbose (x : Z) (c : config) : config :=
  mkConfig (c_quiet c) x (c_print_visits c) (c_processes c) (c_ignore_incomp c) (c_pessimistic c) (c_show_tips c) (c_analyze_hidden c) (c_exclusions_set c) (c_exclusion_regex_set c) (c_make_paths_absolute c) (c_backports c) (c_features c) (c_targets c) (c_eval_annotations c) (c_only_show_violations c) (c_parse_comments c) (c_scan_symlink_folders c) (c_format c).
(** config.py:278-282: the attribute behind the print_visits accessors, replaced. *)
Definition w_print_visits (x : bool) (c : config) : config :=
  mkConfig (c_quiet c) (c_verbose c) x (c_processes c) (c_ignore_incomp c) (c_pessimistic c) (c_show_tips c) (c_analyze_hidden c) (c_exclusions_set c) (c_exclusion_regex_set c) (c_make_paths_absolute c) (c_backports c) (c_features c) (c_targets c) (c_eval_annotations c) (c_only_show_violations c) (c_parse_comments c) (c_scan_symlink_folders c) (c_format c).
(** config.py:284-288: the attribute behind the processes accessors, replaced. *)
Definition w_processes (x : Z) (c : config) : config :=
  mkConfig (c_quiet c) (c_verbose c) (c_print_visits c) x (c_ignore_incomp c) (c_pessimistic c) (c_show_tips c) (c_analyze_hidden c) (c_exclusions_set c) (c_exclusion_regex_set c) (c_make_paths_absolute c) (c_backports c) (c_features c) (c_targets c) (c_eval_annotations c) (c_only_show_violations c) (c_parse_comments c) (c_scan_symlink_folders c) (c_format c).
(** config.py:290-294: the attribute behind the ignore_incomp accessors, replaced. *)
Definition w_ignore_incomp (x : bool) (c : config) : config :=
  mkConfig (c_quiet c) (c_verbose c) (c_print_visits c) (c_processes c) x (c_pessimistic c) (c_show_tips c) (c_analyze_hidden c) (c_exclusions_set c) (c_exclusion_regex_set c) (c_make_paths_absolute c) (c_backports c) (c_features c) (c_targets c) (c_eval_annotations c) (c_only_show_violations c) (c_parse_comments c) (c_scan_symlink_folders c) (c_format c).
(** config.py:382-386: the attribute behind the pessimistic accessors, replaced. *)
Definition w_pessimistic (x : bool) (c : config) : config :=
  mkConfig (c_quiet c) (c_verbose c) (c_print_visits c) (c_processes c) (c_ignore_incomp c) x (c_show_tips c) (c_analyze_hidden c) (c_exclusions_set c) (c_exclusion_regex_set c) (c_make_paths_absolute c) (c_backports c) (c_features c) (c_targets c) (c_eval_annotations c) (c_only_show_violations c) (c_parse_comments c) (c_scan_symlink_folders c) (c_format c).
(** config.py:388-392: the attribute behind the show_tips accessors, replaced. *)
Definition w_show_tips (x : bool) (c : config) : config :=
  mkConfig (c_quiet c) (c_verbose c) (c_print_visits c) (c_processes c) (c_ignore_incomp c) (c_pessimistic c) x (c_analyze_hidden c) (c_exclusions_set c) (c_exclusion_regex_set c) (c_make_paths_absolute c) (c_backports c) (c_features c) (c_targets c) (c_eval_annotations c) (c_only_show_violations c) (c_parse_comments c) (c_scan_symlink_folders c) (c_format c).
(** config.py:394-398: the attribute behind the analyze_hidden accessors, replaced. *)
Definition w_analyze_hidden (x : bool) (c : config) : config :=
  mkConfig (c_quiet c) (c_verbose c) (c_print_visits c) (c_processes c) (c_ignore_incomp c) (c_pessimistic c) (c_show_tips c) x (c_exclusions_set c) (c_exclusion_regex_set c) (c_make_paths_absolute c) (c_backports c) (c_features c) (c_targets c) (c_eval_annotations c) (c_only_show_violations c) (c_parse_comments c) (c_scan_symlink_folders c) (c_format c).
(** config.py:316-319: the attribute behind the exclusions_set accessors, replaced. *)
Definition w_exclusions_set (x : list string) (c : config) : config :=
  mkConfig (c_quiet c) (c_verbose c) (c_print_visits c) (c_processes c) (c_ignore_incomp c) (c_pessimistic c) (c_show_tips c) (c_analyze_hidden c) x (c_exclusion_regex_set c) (c_make_paths_absolute c) (c_backports c) (c_features c) (c_targets c) (c_eval_annotations c) (c_only_show_violations c) (c_parse_comments c) (c_scan_symlink_folders c) (c_format c).
(** config.py:321-324: the attribute behind the exclusion_regex_set accessors, replaced. *)
Definition w_exclusion_regex_set (x : list string) (c : config) : config :=
  mkConfig (c_quiet c) (c_verbose c) (c_print_visits c) (c_processes c) (c_ignore_incomp c) (c_pessimistic c) (c_show_tips c) (c_analyze_hidden c) (c_exclusions_set c) x (c_make_paths_absolute c) (c_backports c) (c_features c) (c_targets c) (c_eval_annotations c) (c_only_show_violations c) (c_parse_comments c) (c_scan_symlink_folders c) (c_format c).
(** config.py:341-345: the attribute behind the make_paths_absolute accessors, replaced. *)
Definition w_make_paths_absolute (x : bool) (c : config) : config :=
  mkConfig (c_quiet c) (c_verbose c) (c_print_visits c) (c_processes c) (c_ignore_incomp c) (c_pessimistic c) (c_show_tips c) (c_analyze_hidden c) (c_exclusions_set c) (c_exclusion_regex_set c) x (c_backports c) (c_features c) (c_targets c) (c_eval_annotations c) (c_only_show_violations c) (c_parse_comments c) (c_scan_symlink_folders c) (c_format c).
(** config.py:356-357: the attribute behind the backports accessors, replaced. *)
Definition w_backports (x : list string) (c : config) : config :=
  mkConfig (c_quiet c) (c_verbose c) (c_print_visits c) (c_processes c) (c_ignore_incomp c) (c_pessimistic c) (c_show_tips c) (c_analyze_hidden c) (c_exclusions_set c) (c_exclusion_regex_set c) (c_make_paths_absolute c) x (c_features c) (c_targets c) (c_eval_annotations c) (c_only_show_violations c) (c_parse_comments c) (c_scan_symlink_folders c) (c_format c).
(** config.py:371-372: the attribute behind the features accessors, replaced. *)
Definition w_features (x : list string) (c : config) : config :=
  mkConfig (c_quiet c) (c_verbose c) (c_print_visits c) (c_processes c) (c_ignore_incomp c) (c_pessimistic c) (c_show_tips c) (c_analyze_hidden c) (c_exclusions_set c) (c_exclusion_regex_set c) (c_make_paths_absolute c) (c_backports c) x (c_targets c) (c_eval_annotations c) (c_only_show_violations c) (c_parse_comments c) (c_scan_symlink_folders c) (c_format c).
(** config.py:428-432: the attribute behind the targets accessors, replaced. *)
Definition w_targets (x : list target) (c : config) : config :=
  mkConfig (c_quiet c) (c_verbose c) (c_print_visits c) (c_processes c) (c_ignore_incomp c) (c_pessimistic c) (c_show_tips c) (c_analyze_hidden c) (c_exclusions_set c) (c_exclusion_regex_set c) (c_make_paths_absolute c) (c_backports c) (c_features c) x (c_eval_annotations c) (c_only_show_violations c) (c_parse_comments c) (c_scan_symlink_folders c) (c_format c).
(** config.py:434-438: the attribute behind the eval_annotations accessors, replaced. *)
Definition w_eval_annotations (x : bool) (c : config) : config :=
  mkConfig (c_quiet c) (c_verbose c) (c_print_visits c) (c_processes c) (c_ignore_incomp c) (c_pessimistic c) (c_show_tips c) (c_analyze_hidden c) (c_exclusions_set c) (c_exclusion_regex_set c) (c_make_paths_absolute c) (c_backports c) (c_features c) (c_targets c) x (c_only_show_violations c) (c_parse_comments c) (c_scan_symlink_folders c) (c_format c).
(** config.py:440-444: the attribute behind the only_show_violations accessors, replaced. *)
Definition w_only_show_violations (x : bool) (c : config) : config :=
  mkConfig (c_quiet c) (c_verbose c) (c_print_visits c) (c_processes c) (c_ignore_incomp c) (c_pessimistic c) (c_show_tips c) (c_analyze_hidden c) (c_exclusions_set c) (c_exclusion_regex_set c) (c_make_paths_absolute c) (c_backports c) (c_features c) (c_targets c) (c_eval_annotations c) x (c_parse_comments c) (c_scan_symlink_folders c) (c_format c).
(** config.py:446-450: the attribute behind the parse_comments accessors, replaced. *)
Definition w_parse_comments (x : bool) (c : config) : config :=
  mkConfig (c_quiet c) (c_verbose c) (c_print_visits c) (c_processes c) (c_ignore_incomp c) (c_pessimistic c) (c_show_tips c) (c_analyze_hidden c) (c_exclusions_set c) (c_exclusion_regex_set c) (c_make_paths_absolute c) (c_backports c) (c_features c) (c_targets c) (c_eval_annotations c) (c_only_show_violations c) x (c_scan_symlink_folders c) (c_format c).
(** config.py:452-456: the attribute behind the scan_symlink_folders accessors, replaced. *)
Definition w_scan_symlink_folders (x : bool) (c : config) : config :=
  mkConfig (c_quiet c) (c_verbose c) (c_print_visits c) (c_processes c) (c_ignore_incomp c) (c_pessimistic c) (c_show_tips c) (c_analyze_hidden c) (c_exclusions_set c) (c_exclusion_regex_set c) (c_make_paths_absolute c) (c_backports c) (c_features c) (c_targets c) (c_eval_annotations c) (c_only_show_violations c) (c_parse_comments c) x (c_format c).
(** config.py:374-380: the attribute behind the format accessors, replaced. *)
Definition w_format (x : fmt) (c : config) : config :=
  mkConfig (c_quiet c) (c_verbose c) (c_print_visits c) (c_processes c) (c_ignore_incomp c) (c_pessimistic c) (c_show_tips c) (c_analyze_hidden c) (c_exclusions_set c) (c_exclusion_regex_set c) (c_make_paths_absolute c) (c_backports c) (c_features c) (c_targets c) (c_eval_annotations c) (c_only_show_violations c) (c_parse_comments c) (c_scan_symlink_folders c) x.

(** config.py:275-276 [set_verbose], config.py:293-294 [set_ignore_incomp],
    config.py:388-389 [set_show_tips] and the other plain setters are [w_...]. *)

(** config.py:374-377 [set_format] followed by the format's [set_config]
    (formats/format.py:17-18; formats/parsable_format.py:10-14). *)
Definition set_format (f : fmt) (c : config) : config :=
  match f with
  | FDefault => w_format FDefault c
  | FParsable =>
      w_format FParsable
        (w_show_tips false (w_ignore_incomp true (w_verbose (Z.max 3 (c_verbose c)) c)))
  end.

(** config.py:19-38 [reset]; [cpus] is DEFAULT_PROCESSES = cpu_count() (constants.py:4). *)
Definition default_config (cpus : Z) : config :=
  set_format FDefault
    (mkConfig false 0 false cpus false false true false [] [] true [] [] [] false false true false FDefault).

(** config.py:287-288 [set_processes]. *)
Definition set_processes (cpus p : Z) (c : config) : config :=
  w_processes (if 0 <? p then p else cpus) c.

(** config.py:296-297 [add_exclusion]. *)
Definition add_exclusion (n : string) (c : config) : config :=
  w_exclusions_set (set_add n (c_exclusions_set c)) c.

(** config.py:299-300 [add_exclusion_regex]; [re_ok] says which patterns [re.compile] accepts. *)
Definition add_exclusion_regex (re_ok : string -> bool) (p : string) (c : config) : res config :=
  if re_ok p then Ok (w_exclusion_regex_set (set_add p (c_exclusion_regex_set c)) c) else Err ReError.

(** config.py:302-308 [add_exclusion_file]; [content] is [None] when opening or reading raises. *)
Definition add_exclusion_file (content : option (list string)) (c : config) : config :=
  match content with
  | None => c
  | Some ls => fold_left (fun c l => add_exclusion (strip l) c) ls c
  end.

(** config.py:310-311, 313-314 [clear_exclusions], [clear_exclusion_regex]. *)
Definition clear_exclusions (c : config) : config := w_exclusions_set [] c.
Definition clear_exclusion_regex (c : config) : config := w_exclusion_regex_set [] c.

(** config.py:316-319 [exclusions], config.py:321-324 [exclusion_regex]. *)
Definition exclusions (c : config) : list string := isort str_leb (c_exclusions_set c).
Definition exclusion_regex (c : config) : list string := isort str_leb (c_exclusion_regex_set c).

(** config.py:326-327 [is_excluded]. *)
Definition is_excluded (c : config) (n : string) : bool := mem n (c_exclusions_set c).

(** config.py:329-330 [is_excluded_kwarg]. *)
Definition is_excluded_kwarg (c : config) (f k : string) : bool :=
  mem (f +++ "(" +++ k +++ ")") (c_exclusions_set c).

(** config.py:332-333 [is_excluded_codecs_error_handler]. *)
Definition is_excluded_ceh (c : config) (n : string) : bool := mem ("ceh=" +++ n) (c_exclusions_set c).

(** config.py:335-336 [is_excluded_codecs_encoding]. *)
Definition is_excluded_ce (c : config) (n : string) : bool := mem ("ce=" +++ n) (c_exclusions_set c).

(** config.py:338-339 [is_excluded_by_regex]; [search pattern path] is [re.search] as an oracle. *)
Definition is_excluded_by_regex (search : string -> string -> bool) (c : config) (p : string) : bool :=
  existsb (fun r => search r p) (c_exclusion_regex_set c).

(** config.py:347-351 [add_backport]. *)
Definition add_backport (n : string) (c : config) : config * bool :=
  if is_backport n then (w_backports (set_add n (c_backports c)) c, true) else (c, false).

(** config.py:353-354 [clear_backports]. *)
Definition clear_backports (c : config) : config := w_backports [] c.

(** config.py:359-363 [enable_feature]. *)
Definition enable_feature (n : string) (c : config) : config * bool :=
  if is_feature n then (w_features (set_add n (c_features c)) c, true) else (c, false).

(** config.py:365-366 [has_feature]. *)
Definition has_feature (c : config) (n : string) : bool := mem n (c_features c).

(** config.py:368-369 [clear_features]. *)
Definition clear_features (c : config) : config := w_features [] c.

(** The forms of argument of [add_target] (config.py:400-403): a str, a version tuple with the
    [exact] parameter, a pair [exact, version], or something else. *)
Inductive target_arg : Type :=
| TStr (s : string)
| TTup (v : ver) (exact : bool)
| TPair (exact : bool) (v : ver)
| TBad.

(** Return value of [add_target]: True, False or None (config.py:406, 418, 422, 427). *)
Inductive tri : Set := RTrue | RFalse | RNone.

Definition target_leb (a b : target) : bool := vleb (snd a) (snd b).

(** config.py:400-426 [add_target]. *)
Definition add_target (t : target_arg) (c : config) : config * tri :=
  if (List.length (c_targets c) =? 2)%nat then (c, RFalse)
  else
    let add x := (w_targets (isort target_leb (c_targets c ++ [x])) c, RTrue) in
    match t with
    | TStr s => match parse_target s with None => (c, RNone) | Some x => add x end
    | TTup v e => add (e, v)
    | TPair e v => add (e, v)
    | TBad => (c, RFalse)
    end.

(** config.py:428-429 [clear_targets]. *)
Definition clear_targets (c : config) : config := w_targets [] c.

(** config.py:40-59 [override_from] as a value: every attribute is taken from [other]; the regex
    patterns are compiled again (they compiled before). The set_format at the end applies the
    format's requirements to this configuration. Sharing of set objects is modelled in Heap.v. *)
Definition override_from (other : config) (c : config) : config :=
  set_format (c_format other)
    (mkConfig (c_quiet other) (c_verbose other) (c_print_visits other) (c_processes other)
       (c_ignore_incomp other) (c_pessimistic other) (c_show_tips other) (c_analyze_hidden other)
       (dedup (exclusions other)) (dedup (exclusion_regex other)) (c_make_paths_absolute other)
       (c_backports other) (c_features other) (c_targets other) (c_eval_annotations other)
       (c_only_show_violations other) (c_parse_comments other) (c_scan_symlink_folders other)
       (c_format c)).

(** ** Histories *)

(** One call of a mutating method of Config. *)
Inductive cmd : Type :=
| CmdQuiet (b : bool) | CmdVerbose (n : Z) | CmdPrintVisits (b : bool) | CmdProcesses (p : Z)
| CmdIgnoreIncomp (b : bool) | CmdPessimistic (b : bool) | CmdShowTips (b : bool)
| CmdHidden (b : bool) | CmdAddExclusion (n : string) | CmdAddExclusionRegex (p : string)
| CmdAddExclusionFile (content : option (list string))
| CmdClearExclusions | CmdClearExclusionRegex | CmdAbsolute (b : bool)
| CmdAddBackport (n : string) | CmdClearBackports | CmdEnableFeature (n : string) | CmdClearFeatures
| CmdAddTarget (t : target_arg) | CmdClearTargets | CmdEvalAnnotations (b : bool)
| CmdViolations (b : bool) | CmdParseComments (b : bool) | CmdSymlinks (b : bool)
| CmdFormat (f : fmt) | CmdOverrideFrom (other : config) | CmdReset.

Section Run.
  Variable cpus : Z.
  Variable re_ok : string -> bool.

  (** Effect of one call; a raising call ([re.compile] of a bad pattern) leaves the object as it was. *)
  Definition run_cmd (c : config) (m : cmd) : config :=
    match m with
    | CmdQuiet b => w_quiet b c
    | CmdVerbose n => w_verbose n c
    | CmdPrintVisits b => w_print_visits b c
    | CmdProcesses p => set_processes cpus p c
    | CmdIgnoreIncomp b => w_ignore_incomp b c
    | CmdPessimistic b => w_pessimistic b c
    | CmdShowTips b => w_show_tips b c
    | CmdHidden b => w_analyze_hidden b c
    | CmdAddExclusion n => add_exclusion n c
    | CmdAddExclusionRegex p => match add_exclusion_regex re_ok p c with Ok c' => c' | Err _ => c end
    | CmdAddExclusionFile f => add_exclusion_file f c
    | CmdClearExclusions => clear_exclusions c
    | CmdClearExclusionRegex => clear_exclusion_regex c
    | CmdAbsolute b => w_make_paths_absolute b c
    | CmdAddBackport n => fst (add_backport n c)
    | CmdClearBackports => clear_backports c
    | CmdEnableFeature n => fst (enable_feature n c)
    | CmdClearFeatures => clear_features c
    | CmdAddTarget t => fst (add_target t c)
    | CmdClearTargets => clear_targets c
    | CmdEvalAnnotations b => w_eval_annotations b c
    | CmdViolations b => w_only_show_violations b c
    | CmdParseComments b => w_parse_comments b c
    | CmdSymlinks b => w_scan_symlink_folders b c
    | CmdFormat f => set_format f c
    | CmdOverrideFrom o => override_from o c
    | CmdReset => default_config cpus
    end.

  Definition run_cmds (l : list cmd) (c : config) : config := fold_left run_cmd l c.
End Run.

(** ** Config files *)

(** configparser's BOOLEAN_STATES (standard library). *)
Definition boolean_state (s : string) : option bool :=
  let l := lower s in
  if mem l ["1"; "yes"; "true"; "on"] then Some true
  else if mem l ["0"; "no"; "false"; "off"] then Some false
  else None.

(** The section [vermin] of a parsed file as seen through ConfigParser: [get] is
    parser.get(CONFIG_SECTION, option) ([None] value: a key without value; [Err]: interpolation
    error), [defaults] is parser.defaults(). *)
Record section : Type := mkSection {
  sec_get : string -> res (option string);
  sec_default : string -> option string
}.

Section ParseFp.
  Variable cpus : Z.
  Variable re_ok : string -> bool.
  Variable sec : section.

  (** config.py:163-167 [getbool]: ValueError falls back to comparing the default with "True"; a key
      without value raises AttributeError in ConfigParser. *)
  Definition getbool (o : string) : res bool :=
    match sec_get sec o with
    | Err e => Err e
    | Ok None => Err AttributeError
    | Ok (Some v) =>
        match boolean_state v with
        | Some b => Ok b
        | None => match sec_default sec o with
                  | Some d => Ok (String.eqb "True" d)
                  | None => Ok false
                  end
        end
    end.

  (** config.py:169-176 [getuint]. *)
  Definition getuint (o : string) : res Z :=
    match sec_get sec o with
    | Err e => Err e
    | Ok None => Err TypeError
    | Ok (Some v) =>
        if String.eqb v "" then
          match sec_default sec o with
          | Some d => match py_int d with Some n => Ok n | None => Err ValueError end
          | None => Err TypeError
          end
        else match py_int v with
             | Some n => if n <? 0 then Err ValueError else Ok n
             | None => Err ValueError
             end
    end.

  (** config.py:178-180 [getstringlist]. *)
  Definition getstringlist (o : string) : res (list string) :=
    match sec_get sec o with
    | Err e => Err e
    | Ok None => Err AttributeError
    | Ok (Some v) => Ok (splitlines (strip v))
    end.

  Fixpoint fold_res {A B} (f : A -> B -> res A) (l : list B) (a : A) : res A :=
    match l with
    | [] => Ok a
    | x :: r => letr a' := f a x in fold_res f r a'
    end.

  (** "return None" of parse_fp as an exception: parse_file and parse_data return None either way. *)
  Definition stop : exn := ConfigError.

  (** config.py:182-226: the options applied to a fresh Config, in source order. *)
  Definition parse_section : res config :=
    let c := default_config cpus in
    letr b := getbool "quiet" in let c := w_quiet b c in
    letr n := getuint "verbose" in let c := w_verbose n c in
    letr b := getbool "print_visits" in let c := w_print_visits b c in
    letr n := getuint "processes" in let c := set_processes cpus n c in
    letr b := getbool "ignore_incomp" in let c := w_ignore_incomp b c in
    letr b := getbool "pessimistic" in let c := w_pessimistic b c in
    letr b := getbool "show_tips" in let c := w_show_tips b c in
    letr b := getbool "analyze_hidden" in let c := w_analyze_hidden b c in
    letr b := getbool "eval_annotations" in let c := w_eval_annotations b c in
    letr b := getbool "only_show_violations" in let c := w_only_show_violations b c in
    letr b := getbool "parse_comments" in let c := w_parse_comments b c in
    letr b := getbool "scan_symlink_folders" in let c := w_scan_symlink_folders b c in
    letr l := getstringlist "exclusions" in
    let c := fold_left (fun c x => add_exclusion x c) l c in
    letr l := getstringlist "exclusion_regex" in
    letr c := fold_res (fun c x => add_exclusion_regex re_ok x c) l c in
    letr b := getbool "make_paths_absolute" in let c := w_make_paths_absolute b c in
    letr l := getstringlist "backports" in
    letr c := fold_res (fun c x => match add_backport x c with (c', true) => Ok c' | _ => Err stop end) l c in
    letr l := getstringlist "features" in
    letr c := fold_res (fun c x => match enable_feature x c with (c', true) => Ok c' | _ => Err stop end) l c in
    letr l := getstringlist "targets" in
    letr c := fold_res (fun c x => match add_target (TStr x) c with (c', RTrue) => Ok c' | _ => Err stop end) l c in
    match sec_get sec "format" with
    | Err e => Err e
    | Ok None => Err AttributeError
    | Ok (Some s) =>
        match from_name (strip s) with
        | None => Err stop
        | Some f => Ok (set_format f c)
        end
    end.
End ParseFp.

(** config.py:112-133: the defaults given to ConfigParser, texts of the getters of a new Config.
    [str(bool)] is "True" or "False"; the lists are empty. *)
Definition py_bool_str (b : bool) : string := if b then "True" else "False".
Definition default_args (cpus : Z) : list (string * string) :=
  let c := default_config cpus in
  [("quiet", py_bool_str (c_quiet c)); ("verbose", z_str (c_verbose c));
   ("print_visits", py_bool_str (c_print_visits c)); ("processes", z_str (c_processes c));
   ("ignore_incomp", py_bool_str (c_ignore_incomp c)); ("pessimistic", py_bool_str (c_pessimistic c));
   ("show_tips", py_bool_str (c_show_tips c)); ("analyze_hidden", py_bool_str (c_analyze_hidden c));
   ("exclusions", join nl (exclusions c)); ("exclusion_regex", join nl (exclusion_regex c));
   ("make_paths_absolute", py_bool_str (c_make_paths_absolute c)); ("backports", join nl (c_backports c));
   ("features", join nl (c_features c)); ("targets", "");
   ("eval_annotations", py_bool_str (c_eval_annotations c));
   ("only_show_violations", py_bool_str (c_only_show_violations c));
   ("parse_comments", py_bool_str (c_parse_comments c));
   ("scan_symlink_folders", py_bool_str (c_scan_symlink_folders c));
   ("format", fmt_name (c_format c))].

(** The section as ConfigParser presents it when the file's [vermin] section sets [opts] (a key may
    have no value) and there is no [DEFAULT] section: options not set have the default's text
    (config.py:134-137). Interpolation ("%") is left out. *)
Definition section_of (cpus : Z) (opts : list (string * option string)) : section :=
  mkSection
    (fun o => match assoc o opts with
              | Some v => Ok v
              | None => match assoc o (default_args cpus) with
                        | Some d => Ok (Some d)
                        | None => Err KeyError
                        end
              end)
    (fun o => assoc o (default_args cpus)).

(** What a config path holds: cannot be opened or decoded, not parsable as INI, parsed with or
    without a [vermin] section. *)
Inductive cfg_file : Type :=
| CfgUnreadable
| CfgUnparsable
| CfgNoSection
| CfgSection (s : section).

(** config.py:89-96 [parse_file] with config.py:107-226 [parse_fp]: every exception and every
    "return None" ends as None. The messages printed on failure are in Messages.v. *)
Definition parse_file (cpus : Z) (re_ok : string -> bool) (f : cfg_file) : option config :=
  match f with
  | CfgSection s => match parse_section cpus re_ok s with Ok c => Some c | Err _ => None end
  | _ => None
  end.

(** ** Finding a config file *)

(** constants.py:5, 8-17 *)
Definition config_file_names : list string := ["vermin.ini"; "vermin.conf"; ".vermin"; "setup.cfg"].
Definition project_boundaries : list string :=
  [".bzr"; ".fslckout"; ".git"; ".hg"; ".p4root"; ".pijul"; ".svn"; "_darcs"].

(** Result of probing one candidate (config.py:238-247): missing; read but without the section (or
    unreadable, which ConfigParser.read skips); has the section; raises ParsingError; raises
    something else (DuplicateOptionError, DuplicateSectionError, UnicodeDecodeError are no
    ParsingError). *)
Inductive probe : Set := PrAbsent | PrNoSection | PrSection | PrParsingError | PrOtherError.

Section DetectConfig.
  (** A folder is the list of its path components from the root, innermost first. *)
  Variable candidate : list string -> string -> probe.
  Variable exists_in : list string -> string -> bool.

  (** The inner loop of config.py:236-247 over the candidates of one folder. *)
  Fixpoint probe_folder (folder : list string) (names : list string) : res (option string) :=
    match names with
    | [] => Ok None
    | n :: r =>
        match candidate folder n with
        | PrSection => Ok (Some n)
        | PrOtherError => Err ConfigError
        | _ => probe_folder folder r
        end
    end.

  (** config.py:251-259: a boundary marker in the folder. *)
  Definition at_boundary (folder : list string) : bool :=
    existsb (exists_in folder) project_boundaries.

  (** config.py:228-264 [detect_config_file]: the folder and file found. Simplification: folders are
      absolute and normalised, as os.getcwd() gives them, so "abspath(join(folder, ..))" drops the
      last component and is the identity at the root. *)
  Fixpoint detect_config_file (folder : list string) : res (option (list string * string)) :=
    match probe_folder folder config_file_names with
    | Err e => Err e
    | Ok (Some n) => Ok (Some (folder, n))
    | Ok None =>
        if at_boundary folder then Ok None
        else match folder with
             | [] => Ok None
             | _ :: parent => detect_config_file parent
             end
    end.
End DetectConfig.
