(** Model of /repo/vermin/arguments.py:194-428 [Arguments.parse]: its effects. What it prints is in
    Messages.v, the usage text (lines 15-192) in Usage.v. *)
From Verif Require Import PyBase Utility RulesData Rules Config Formats Paths.

(** What parse() returns: usage, an exit code, or the paths to analyse (and what was printed). *)
Inductive parse_out : Type :=
| OUsage (code : Z) (full : bool)
| OCode (code : Z)
| OPaths (paths : list string) (versions : bool) (printed : list string).

(** State of the main parsing step. *)
Record pstate : Type := mkP {
  p_config : config;
  p_pos : nat;
  p_versions : bool;
  p_fmt : option fmt
}.

(** Result of handling one argument: go on, return code 1, or an exception. *)
Inductive step : Type :=
| SGo (s : pstate)
| SFail
| SRaise (e : exn).

Definition adv (n : nat) (f : config -> config) (s : pstate) : step :=
  SGo (mkP (f (p_config s)) (p_pos s + n)%nat (p_versions s) (p_fmt s)).

(** [arg.split("=")[1]]. *)
Definition after_eq (a : string) : string := nth 1 (split_char "="%char a) "".

(** [arg.count("v")]. *)
Fixpoint count_char (x : ascii) (s : string) : Z :=
  match s with EmptyString => 0 | String y r => (if Ascii.eqb x y then 1 else 0) + count_char x r end.

Section Parse.
  Variable cpus : Z.
  Variable re_ok : string -> bool.
  (** Contents of the file of --exclude-file, [None] if it cannot be read. *)
  Variable excl_file : string -> option (list string).

  (** The options without an operand and their effect on the configuration (arguments.py:245-253,
      260-268, 281-292, 296-301, 324-326, 333-341, 356-358, 368-400). *)
  Definition flag_effect (a : string) : option (config -> config) :=
    if mem a ["--quiet"; "-q"] then Some (w_quiet true)
    else if String.eqb a "--no-quiet" then Some (w_quiet false)
    else if startswith "-v" a then Some (w_verbose (count_char "v"%char a))
    else if String.eqb a "--no-target" then Some clear_targets
    else if mem a ["--ignore"; "-i"] then Some (w_ignore_incomp true)
    else if String.eqb a "--no-ignore" then Some (w_ignore_incomp false)
    else if String.eqb a "--no-dump" then Some (w_print_visits false)
    else if mem a ["--dump"; "-d"] then Some (w_print_visits true)
    else if String.eqb a "--hidden" then Some (w_analyze_hidden true)
    else if String.eqb a "--no-hidden" then Some (w_analyze_hidden false)
    else if String.eqb a "--show-tips" then Some (w_show_tips true)
    else if String.eqb a "--no-tips" then Some (w_show_tips false)
    else if String.eqb a "--no-exclude" then Some clear_exclusions
    else if String.eqb a "--no-exclude-regex" then Some clear_exclusion_regex
    else if String.eqb a "--make-paths-absolute" then Some (w_make_paths_absolute true)
    else if String.eqb a "--no-make-paths-absolute" then Some (w_make_paths_absolute false)
    else if String.eqb a "--no-backport" then Some clear_backports
    else if String.eqb a "--no-feature" then Some clear_features
    else if String.eqb a "--pessimistic" then Some (w_pessimistic true)
    else if String.eqb a "--no-pessimistic" then Some (w_pessimistic false)
    else if String.eqb a "--eval-annotations" then Some (w_eval_annotations true)
    else if String.eqb a "--no-eval-annotations" then Some (w_eval_annotations false)
    else if mem a ["--violations"; "--lint"] then Some (w_only_show_violations true)
    else if mem a ["--no-violations"; "--no-lint"] then Some (w_only_show_violations false)
    else if String.eqb a "--parse-comments" then Some (w_parse_comments true)
    else if String.eqb a "--no-parse-comments" then Some (w_parse_comments false)
    else if String.eqb a "--scan-symlink-folders" then Some (w_scan_symlink_folders true)
    else if String.eqb a "--no-symlink-folders" then Some (w_scan_symlink_folders false)
    else None.

  (** One iteration of the main parsing loop (arguments.py:240-400); [next] is args[i + 1]. The order
      of the tests differs from the source only among tests that exclude each other. *)
  Definition parse_arg (a : string) (next : option string) (s : pstate) : step :=
    if mem a ["--config-file"; "-c"] then adv 2 (fun c => c) s
    else match flag_effect a with
    | Some f => adv 1 f s
    | None =>
      if startswith "-t=" a || startswith "--target=" a then
        match add_target (TStr (after_eq a)) (p_config s) with
        | (c, RTrue) => adv 1 (fun _ => c) s
        | _ => SFail
        end
      else if startswith "-p=" a || startswith "--processes=" a then
        match py_int (after_eq a) with
        | None => SFail
        | Some n => if n <=? 0 then SFail else adv 1 (set_processes cpus n) s
        end
      else if String.eqb a "--versions" then
        SGo (mkP (p_config s) (p_pos s + 1)%nat true (p_fmt s))
      else if mem a ["--format"; "-f"] then
        match next with
        | None => SFail
        | Some n => match from_name (lower n) with
                    | None => SFail
                    | Some f => SGo (mkP (p_config s) (p_pos s + 2)%nat (p_versions s) (Some f))
                    end
        end
      else if String.eqb a "--exclude" then
        match next with None => SFail | Some n => adv 2 (add_exclusion n) s end
      else if String.eqb a "--exclude-file" then
        match next with None => SFail | Some n => adv 2 (add_exclusion_file (excl_file n)) s end
      else if String.eqb a "--exclude-regex" then
        match next with
        | None => SFail
        | Some n => match add_exclusion_regex re_ok n (p_config s) with
                    | Ok c => adv 2 (fun _ => c) s
                    | Err e => SRaise e
                    end
        end
      else if String.eqb a "--backport" then
        match next with
        | None => SFail
        | Some n => match add_backport n (p_config s) with
                    | (c, true) => adv 2 (fun _ => c) s
                    | (_, false) => SFail
                    end
        end
      else if String.eqb a "--feature" then
        match next with
        | None => SFail
        | Some n => match enable_feature n (p_config s) with
                    | (c, true) => adv 2 (fun _ => c) s
                    | (_, false) => SFail
                    end
        end
      else SGo s
    end.

  (** The loop of arguments.py:240-400 over every argument, operands included. *)
  Fixpoint parse_loop (args : list string) (s : pstate) : step :=
    match args with
    | [] => SGo s
    | a :: r =>
        match parse_arg a (hd_error r) s with
        | SGo s' => parse_loop r s'
        | x => x
        end
    end.

  (** Result of the preparsing loop (arguments.py:209-222). *)
  Inductive pre : Type :=
  | PreHelp
  | PreVersion
  | PreMissingFile
  | PreGo (no_config : bool) (argument_config : option string).

  Variable cwd : string.

  Fixpoint preparse (args : list string) (no_config : bool) (ac : option string) : pre :=
    match args with
    | [] => PreGo no_config ac
    | a :: r =>
        if mem a ["--help"; "-h"] then PreHelp
        else if mem a ["--version"; "-V"] then PreVersion
        else if String.eqb a "--no-config-file" then preparse r true ac
        else if mem a ["--config-file"; "-c"] then
          match r with
          | [] => PreMissingFile
          | f :: _ => preparse r no_config (Some (abspath cwd f))
          end
        else preparse r no_config ac
    end.

  (** Config file contents by path. *)
  Variable cfg : string -> cfg_file.

  (** arguments.py:402-428: after the loop. [note] is the text of line 423 when it applies. *)
  Definition finish (args : list string) (note : option string) (s : pstate) : config * parse_out :=
    let c := match p_fmt s with Some f => set_format f (p_config s) | None => p_config s end in
    if c_only_show_violations c && (List.length (c_targets c) =? 0)%nat then (c, OCode 1)
    else
      let c := if c_only_show_violations c && (c_verbose c <? 2) then w_verbose 2 c else c in
      if c_quiet c && (0 <? c_verbose c) && negb (c_only_show_violations c) then (c, OCode 1)
      else
        let parsable := fmt_eqb (c_format c) FParsable in
        let versions := if parsable then false else p_versions s in
        let printed := match note with
                       | Some f => if parsable then [] else nprint c ("Using detected config: " +++ f)
                       | None => []
                       end in
        (c, OPaths (skipn (p_pos s) args) versions printed).

  (** arguments.py:194-428 [parse] with [detected] the outcome of detect_config_file (line 203). *)
  Definition parse (detected : res (option string)) (args : list string) (c : config)
    : res (config * parse_out) :=
    match args with
    | [] => Ok (c, OUsage 1 false)
    | _ =>
      match detected with
      | Err e => Err e
      | Ok det =>
        match preparse args false None with
        | PreHelp => Ok (c, OUsage 0 true)
        | PreVersion => Err (SystemExit 0)
        | PreMissingFile => Ok (c, OCode 1)
        | PreGo no_config ac =>
          let det := if no_config then None else det in
          match no_config, ac with
          | true, Some _ => Ok (c, OCode 1)
          | _, _ =>
            let candidate := match ac with Some f => Some f | None => det end in
            let loaded := match candidate with
                          | None => Some None
                          | Some f => match parse_file cpus re_ok (cfg f) with
                                      | None => None
                                      | Some c' => Some (Some c')
                                      end
                          end in
            match loaded with
            | None => Ok (c, OCode 1)
            | Some lc =>
              let c0 := match lc with Some c' => override_from c' c | None => c end in
              let note := match ac with None => det | Some _ => None end in
              match parse_loop args (mkP c0 0 false None) with
              | SGo s => Ok (finish args note s)
              | SFail => Ok (c0, OCode 1)
              | SRaise e => Err e
              end
            end
          end
        end
      end
    end.
End Parse.
