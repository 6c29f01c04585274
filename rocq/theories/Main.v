(** Model of /repo/vermin/main.py: one run of the program. *)
From Verif Require Import PyBase Utility RulesData Rules Config Formats Paths AstKinds Ast State Visitor
  MinVersions Parser Detection Arguments Processor.

(** ** The final report (main.py:71-153) *)

(** main.py:75-81: requirements and incompatible majors. The test "ver != 0" is true of every
    tuple. *)
Definition reqs_of (m : mins) : list ver := somes [fst m; snd m].
Definition incomps_of (m : mins) : list Z :=
  (match fst m with None => [2] | Some _ => [] end) ++ (match snd m with None => [3] | Some _ => [] end).

(** [version_strings] of a list of tuples, of ints, of strs. *)
Definition vs_vers (l : list ver) (sep : string) : res string :=
  version_strings (map (fun v => VPv (PTup v)) l) sep.
Definition vs_ints (l : list Z) : res string := version_strings (map (fun z => VPv (PInt z)) l) "".
Definition vs_strs (l : list string) : res string := version_strings (map VStrI l) "".

Definition strip_tilde (s : string) : string := replace_char "~" "" s.

(** main.py:130-132: the majors with no evidence. *)
Definition unknown_majors (reqs : list ver) : res (list string) :=
  letr s := vs_vers reqs "," in
  Ok (map strip_tilde (filter (contains "~") (split_char "," s))).

(** main.py:89-124: the tips. *)
Definition tips_of (c : config) (s : summary) : list (list string) :=
  (if m_maybe s && negb (c_eval_annotations c)
   then [["Generic or literal annotations might be in use. If so, try using: --eval-annotations";
          "But check the caveat section: https://github.com/netromdk/vermin#caveats"]]
   else []) ++
  (let bps := isort str_leb
                (filter (fun b => negb (mem b (unversioned_filter (c_backports c)))) (m_bps s)) in
   if (0 <? List.length bps)%nat
   then [["You're using potentially backported modules: " +++ join ", " bps;
          "If so, try using the following for better results: " +++
          strip (sconcat (map (fun n => " --backport " +++ n) bps))]]
   else []) ++
  (if negb (m_novm s) && c_parse_comments c
   then [["Since '# novm' or '# novermin' weren't used, a speedup can be achieved using: --no-parse-comments"]]
   else []).

Definition is_zero_ver (v : ver) : bool := veqb v (0, 0).

(** main.py:110-124: the tips, printed. *)
Definition tips_lines (c : config) (reqs : list ver) (s : summary) : list string :=
  let tips := tips_of c s in
  if c_show_tips c && (0 <? List.length tips)%nat then
    (if (List.length reqs =? 0)%nat
        || ((List.length reqs =? 2)%nat && forallb is_zero_ver reqs && (0 <? c_verbose c))
        || ((0 <? List.length reqs)%nat && (0 <? c_verbose c) && (c_verbose c <? 2))
     then nprint c "" else []) ++
    nprint c "Tips:" ++
    flat_map (fun t => nprint c ("- " +++ join (nl +++ "  ") t)) tips ++
    nprint c "(disable using: --no-tips)" ++
    (if (0 <? List.length reqs)%nat then nprint c "" else [])
  else [].

(** main.py:144-147: the inconclusive case of violations mode. *)
Definition all_inconclusive (c : config) (reqs : list ver) : bool :=
  c_only_show_violations c && (0 <? List.length reqs)%nat && forallb is_zero_ver reqs.

(** main.py:141-153: exit code by targets. *)
Definition targets_failed (c : config) (reqs : list ver) : bool :=
  (0 <? List.length (c_targets c))%nat && negb (all_inconclusive c reqs)
  && negb (compare_requirements reqs (c_targets c)).

Definition target_text (t : target) : string := ver_str (snd t) +++ (if fst t then "" else "-").

(** main.py:71-153: everything after processing; printed lines and exit code. *)
Definition report (c : config) (versions : bool) (s : summary) : res (list string * Z) :=
  let parsable := fmt_eqb (c_format c) FParsable in
  let reqs := reqs_of (m_mins s) in
  let incomps := incomps_of (m_mins s) in
  let l1 := if m_incomp s && negb (c_ignore_incomp c)
            then nprint c "Note: Some files had incompatible versions so the results might not be correct!"
            else [] in
  let l2 := if negb parsable && (List.length reqs =? 0)%nat && (List.length incomps =? 0)%nat
            then nprint c "No known reason found that it will not work with 2+ and 3+." ++
                 nprint c "Please report if it does not: https://github.com/netromdk/vermin/issues/"
            else [] in
  let l3 := tips_lines c reqs s in
  letr l4 :=
    if parsable then Ok [parsable_line "" "" None None (Some (m_mins s))]
    else if (0 <? List.length reqs)%nat then
      letr vs := vs_vers reqs "" in
      letr note :=
        if existsb is_zero_ver reqs then
          letr u := unknown_majors reqs in
          Ok (nprint c ("Note: Not enough evidence to conclude it won't work with Python " +++
                        join " or " u +++ "."))
        else Ok [] in
      Ok (nprint c ("Minimum required versions: " +++ vs) ++ note)
    else Ok [] in
  letr l5 :=
    if (0 <? List.length incomps)%nat && negb parsable
       && (negb (c_ignore_incomp c) || (List.length reqs =? 0)%nat)
    then letr vs := vs_ints incomps in Ok (nprint c ("Incompatible versions:     " +++ vs))
    else Ok [] in
  letr l6 :=
    if versions && (0 <? List.length (m_unique s))%nat
    then letr vs := vs_vers (m_unique s) "" in Ok (nprint c ("Version range:             " +++ vs))
    else Ok [] in
  if targets_failed c reqs then
    letr l7 :=
      if parsable then Ok []
      else letr vs := vs_strs (map target_text (c_targets c)) in
           Ok (nprint c ("Target versions not met:   " +++ vs)) in
    Ok (l1 ++ l2 ++ l3 ++ l4 ++ l5 ++ l6 ++ l7, 1)
  else Ok (l1 ++ l2 ++ l3 ++ l4 ++ l5 ++ l6, 0).

(** ** The run *)

(** Everything outside the program: the machine, the file system, CPython's reading of sources. *)
Record world : Type := mkWorld {
  w_cpus : Z;
  w_major : Z;
  w_cwd : string;
  w_fs : fsys;
  w_re_ok : string -> bool;
  w_search : string -> string -> bool;
  w_excl_file : string -> option (list string);
  w_cfg_file : string -> cfg_file;
  w_detected : res (option string);
  w_file : string -> fcontent;
  w_ending : string -> ending;
  w_hooks : hooks
}.

(** main.py:56-60: violations mode un-quiets the processor's copy of the configuration. *)
Definition local_config (c : config) : config :=
  if c_only_show_violations c && c_quiet c then w_quiet false c else c.

(** main.py:31-43: the files analysed. *)
Definition ignore_chars_of (c : config) : list string :=
  if fmt_eqb (c_format c) FParsable then [":"; nl] else [].
Definition input_paths (w : world) (c : config) (paths : list string) : list string :=
  if c_make_paths_absolute c then map (abspath (w_cwd w)) paths else paths.
Definition found_files (w : world) (c : config) (fuel : nat) (paths : list string)
  : option (res (list string)) :=
  option_map (mapr (fun l => isort str_leb (dedup l)))
    (detect_paths (w_fs w) (w_cwd w) (w_search w) c (c_analyze_hidden c) (ignore_chars_of c)
                  (c_scan_symlink_folders c) fuel (input_paths w c paths)).

(** Outcome of a run: what is on stdout from this process, and the exit code or exception. *)
Definition outcome : Type := (string * res Z)%type.

(** main.py:31-153 for a parsed command line. *)
Definition run_files (w : world) (c : config) (versions : bool) (files : list string) : outcome :=
  let parsable := fmt_eqb (c_format c) FParsable in
  match files with
  | [] => (print_lines (nprint c "No files specified to analyze!"), Ok 1)
  | _ =>
      let n := List.length files in
      let head := if parsable then []
                  else vprint c ("Analyzing" +++ (if (1 <? n)%nat then " " +++ nat_str n +++ " files" else "") +++
                                 " using " +++ z_str (c_processes c) +++ " processes..") in
      let lc := local_config c in
      let (out, r) := process (w_hooks w) (w_major w) lc (w_file w) (w_ending w) (c_processes lc) files in
      match r with
      | Err KeyboardInterrupt =>
          (print_lines head +++ out +++ print_lines (nprint c "Aborting.."), Ok 1)
      | Err x => (print_lines head +++ out, Err x)
      | Ok s =>
          match report c versions s with
          | Ok (lines, code) => (print_lines head +++ out +++ print_lines lines, Ok code)
          | Err x => (print_lines head +++ out, Err x)
          end
      end
  end.

(** main.py:13-153 [main] without the texts printed while the command line is read, see Messages.v; [None]: folders nested deeper than
    [fuel]. *)
Definition main (w : world) (fuel : nat) (args : list string) : option outcome :=
  match parse (w_cpus w) (w_re_ok w) (w_excl_file w) (w_cwd w) (w_cfg_file w) (w_detected w) args
              (default_config (w_cpus w)) with
  | Err (SystemExit n) => Some ("", Ok n)
  | Err x => Some ("", Err x)
  | Ok (c, OUsage code _) => Some ("", Ok code)
  | Ok (c, OCode code) => Some ("", Ok code)
  | Ok (c, OPaths paths versions printed) =>
      let head := printed ++ (if fmt_eqb (c_format c) FParsable then [] else vprint c "Detecting python files..") in
      match found_files w c fuel paths with
      | None => None
      | Some (Err x) => Some (print_lines head, Err x)
      | Some (Ok files) =>
          let (out, r) := run_files w c versions files in
          Some (print_lines head +++ out, r)
      end
  end.
