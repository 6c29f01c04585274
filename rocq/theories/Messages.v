(** What is printed while the command line and the config file are read: arguments.py:194-428,
    config.py:89-226. The texts of exceptions raised by Python are an oracle [err_text], by file. *)
From Verif Require Import PyBase Utility RulesData Rules Config Formats Paths AstKinds Ast State Visitor
  MinVersions Parser Detection Arguments Processor Main UsageData Usage.

(** config.py:404-406, then the text of the caller for a target that was not added (arguments.py:257-258,
    config.py:213-214). *)
Definition target_said (v : string) (c : config) : list string :=
  (if (List.length (c_targets c) =? 2)%nat then ["A maximum of two targets can be specified!"] else []) ++
  ["Invalid target: " +++ v].

(** arguments.py:348-353: an unknown backport. *)
Definition backport_said (n : string) : res (list string) :=
  let bps := expand_versions (version_filter n) in
  letr meant := if (0 <? List.length bps)%nat
                then letr t := backports_str 2 bps in Ok ["Did you mean one of the following?"; t]
                else Ok [] in
  Ok (["Unknown backport: " +++ n] ++ meant ++ ["Get the full list of backports via `--help`."]).

Section Said.
  Variable cpus : Z.
  Variable re_ok : string -> bool.
  Variable excl_file : string -> option (list string).
  Variable cwd : string.
  Variable cfg : string -> cfg_file.
  (** The text of the exception when reading this file fails. *)
  Variable err_text : string -> string.

  (** What handling one argument prints (arguments.py:240-400); see [Arguments.parse_arg] for the effect.
      Backports.str never raises here: [Err] is kept for the equality with the source. *)
  Definition arg_said (a : string) (next : option string) (s : pstate) : res (list string) :=
    if mem a ["--config-file"; "-c"] then Ok []
    else match flag_effect a with
    | Some f => Ok []
    | None =>
      if startswith "-t=" a || startswith "--target=" a then
        match add_target (TStr (after_eq a)) (p_config s) with
        | (_, RTrue) => Ok []
        | _ => Ok (target_said (after_eq a) (p_config s))
        end
      else if startswith "-p=" a || startswith "--processes=" a then
        match py_int (after_eq a) with
        | None => Ok ["Invalid value: " +++ after_eq a]
        | Some n => if n <=? 0 then Ok ["Non-positive number: " +++ z_str n] else Ok []
        end
      else if String.eqb a "--versions" then Ok []
      else if mem a ["--format"; "-f"] then
        match next with
        | None => Ok ["Format requires a name! Example: --format parsable"]
        | Some n => match from_name (lower n) with
                    | None => Ok ["Unknown format: " +++ lower n]
                    | Some f => Ok []
                    end
        end
      else if String.eqb a "--exclude" then
        match next with
        | None => Ok ["Exclusion requires a name! Example: --exclude email.parser.FeedParser"]
        | Some n => Ok []
        end
      else if String.eqb a "--exclude-file" then
        match next with
        | None => Ok ["Exclusion requires a file name! Example: --exclude-file '~/exclusions.txt'"]
        | Some n => match excl_file n with None => Ok [err_text n] | Some _ => Ok [] end
        end
      else if String.eqb a "--exclude-regex" then
        match next with
        | None => Ok ["Exclusion requires a regex! Example: --exclude-regex '\.pyi$'"]
        | Some n => Ok []
        end
      else if String.eqb a "--backport" then
        match next with
        | None => Ok ["Requires a backport name! Example: --backport typing"]
        | Some n => match add_backport n (p_config s) with
                    | (_, true) => Ok []
                    | (_, false) => backport_said n
                    end
        end
      else if String.eqb a "--feature" then
        match next with
        | None => Ok ["Requires a feature name! Example: --feature fstring-self-doc"]
        | Some n => match enable_feature n (p_config s) with
                    | (_, true) => Ok []
                    | (_, false) => Ok ["Unknown feature: " +++ n]
                    end
        end
      else Ok []
    end.

  (** The loop of arguments.py:240-400. *)
  Fixpoint loop_said (args : list string) (s : pstate) : res (list string) :=
    match args with
    | [] => Ok []
    | a :: r =>
        letr x := arg_said a (hd_error r) s in
        match parse_arg cpus re_ok excl_file a (hd_error r) s with
        | SGo s' => letr y := loop_said r s' in Ok (x ++ y)
        | _ => Ok x
        end
    end.

  (** arguments.py:402-417: the final checks. *)
  Definition finish_said (s : pstate) : list string :=
    let c := match p_fmt s with Some f => set_format f (p_config s) | None => p_config s end in
    if c_only_show_violations c && (List.length (c_targets c) =? 0)%nat
    then ["Showing violations requires target(s) to be specified!"]
    else
      let c := if c_only_show_violations c && (c_verbose c <? 2) then w_verbose 2 c else c in
      if c_quiet c && (0 <? c_verbose c) && negb (c_only_show_violations c)
      then ["Cannot use quiet and verbose modes together!"]
      else [].

  (** Config files: the configuration, or what is printed before parse_file returns None. *)
  Definition told (A : Type) : Type := (A + list string)%type.
  Definition tbind {A B} (x : told A) (f : A -> told B) : told B :=
    match x with inl a => f a | inr l => inr l end.

  (** config.py:92-95: an exception ends in two lines. *)
  Definition raised {A} (path : string) (r : res A) : told A :=
    match r with
    | Ok x => inl x
    | Err _ => inr ["Could not load config file: " +++ path; err_text path]
    end.

  Fixpoint fold_told {A B} (f : A -> B -> told A) (l : list B) (a : A) : told A :=
    match l with
    | [] => inl a
    | x :: r => tbind (f a x) (fold_told f r)
    end.

  (** config.py:182-226: as [Config.parse_section], with what is printed. *)
  Definition section_told (path : string) (sec : section) : told config :=
    let get {A} (r : res A) := raised path r in
    let c := default_config cpus in
    tbind (get (getbool sec "quiet")) (fun b => let c := w_quiet b c in
    tbind (get (getuint sec "verbose")) (fun n => let c := w_verbose n c in
    tbind (get (getbool sec "print_visits")) (fun b => let c := w_print_visits b c in
    tbind (get (getuint sec "processes")) (fun n => let c := set_processes cpus n c in
    tbind (get (getbool sec "ignore_incomp")) (fun b => let c := w_ignore_incomp b c in
    tbind (get (getbool sec "pessimistic")) (fun b => let c := w_pessimistic b c in
    tbind (get (getbool sec "show_tips")) (fun b => let c := w_show_tips b c in
    tbind (get (getbool sec "analyze_hidden")) (fun b => let c := w_analyze_hidden b c in
    tbind (get (getbool sec "eval_annotations")) (fun b => let c := w_eval_annotations b c in
    tbind (get (getbool sec "only_show_violations")) (fun b => let c := w_only_show_violations b c in
    tbind (get (getbool sec "parse_comments")) (fun b => let c := w_parse_comments b c in
    tbind (get (getbool sec "scan_symlink_folders")) (fun b => let c := w_scan_symlink_folders b c in
    tbind (get (getstringlist sec "exclusions")) (fun l =>
    let c := fold_left (fun c x => add_exclusion x c) l c in
    tbind (get (getstringlist sec "exclusion_regex")) (fun l =>
    tbind (fold_told (fun c x => get (add_exclusion_regex re_ok x c)) l c) (fun c =>
    tbind (get (getbool sec "make_paths_absolute")) (fun b => let c := w_make_paths_absolute b c in
    tbind (get (getstringlist sec "backports")) (fun l =>
    tbind (fold_told (fun c x => match add_backport x c with
                                 | (c', true) => inl c'
                                 | _ => inr ["Unknown backport: " +++ x]
                                 end) l c) (fun c =>
    tbind (get (getstringlist sec "features")) (fun l =>
    tbind (fold_told (fun c x => match enable_feature x c with
                                 | (c', true) => inl c'
                                 | _ => inr ["Unknown feature: " +++ x]
                                 end) l c) (fun c =>
    tbind (get (getstringlist sec "targets")) (fun l =>
    tbind (fold_told (fun c x => match add_target (TStr x) c with
                                 | (c', RTrue) => inl c'
                                 | _ => inr (target_said x c)
                                 end) l c) (fun c =>
    match sec_get sec "format" with
    | Ok (Some s) =>
        match from_name (strip s) with
        | None => inr ["Unknown format: " +++ strip s]
        | Some f => inl (set_format f c)
        end
    | _ => get (Err AttributeError)
    end)))))))))))))))))))))).

  (** config.py:89-96 [parse_file] and 107-161 of [parse_fp]. A file that cannot be decoded fails while it is
      parsed: it counts as [CfgUnparsable] here. *)
  Definition file_told (path : string) : told config :=
    match cfg path with
    | CfgUnreadable => inr ["Could not load config file: " +++ path; err_text path]
    | CfgUnparsable => inr ["Could not load config: " +++ path; err_text path]
    | CfgNoSection => inr ["Missing `[vermin]` section in config: " +++ path]
    | CfgSection s => section_told path s
    end.

  (** arguments.py:194-428 [parse]: what is printed, but for the line that names a detected config file
      (line 423, in [Arguments.parse]). *)
  Definition parse_said (detected : res (option string)) (args : list string) (c : config) : res (list string) :=
    match args with
    | [] => Ok []
    | _ =>
      match detected with
      | Err e => Ok []
      | Ok det =>
        match preparse cwd args false None with
        | PreHelp => Ok []
        | PreVersion => Ok [version_text]
        | PreMissingFile => Ok ["Requires config file path! Example: --config-file /path/to/vermin.ini"]
        | PreGo no_config ac =>
          let det := if no_config then None else det in
          match no_config, ac with
          | true, Some _ => Ok ["--config-file cannot be used together with --no-config-file!"]
          | _, _ =>
            let candidate := match ac with Some f => Some f | None => det end in
            match match candidate with
                  | None => inl c
                  | Some f => tbind (file_told f) (fun c' => inl (override_from c' c))
                  end with
            | inr l => Ok l
            | inl c0 =>
              let s := mkP c0 0 false None in
              letr x := loop_said args s in
              match parse_loop cpus re_ok excl_file args s with
              | SGo s' => Ok (x ++ finish_said s')
              | _ => Ok x
              end
            end
          end
        end
      end
    end.
End Said.

(** main.py:13-20: what is on stdout before the files are looked for: the messages, or the usage text. *)
Definition opening (w : world) (prog : string) (err_text : string -> string) (args : list string) : res (list string) :=
  let c := default_config (w_cpus w) in
  letr said := parse_said (w_cpus w) (w_re_ok w) (w_excl_file w) (w_cwd w) (w_cfg_file w) err_text (w_detected w) args c in
  match parse (w_cpus w) (w_re_ok w) (w_excl_file w) (w_cwd w) (w_cfg_file w) (w_detected w) args c with
  | Ok (_, OUsage _ full) => letr u := print_usage prog (w_cpus w) full in Ok (said ++ u)
  | _ => Ok said
  end.

(** main.py:13-153 [main] with all of its output ([Main.main] leaves out the texts above). *)
Definition whole_main (w : world) (prog : string) (err_text : string -> string) (fuel : nat) (args : list string)
  : option outcome :=
  match opening w prog err_text args with
  | Err e => Some ("", Err e)
  | Ok l => option_map (fun o => (print_lines l +++ fst o, snd o)) (main w fuel args)
  end.
