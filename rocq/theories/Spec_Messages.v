(** What a refused command line is told (C69). *)
From Verif Require Import PyBase Utility RulesData Rules Config Paths Formats Arguments Spec_Base Spec_Utility
  Spec_Config Spec_Args Spec_Rules.

(** [o] is the last argument; [n] follows [o]; the value [v] is given with one of the prefixes [ps]. *)
Definition comes_last (args : list string) (o : string) : Prop := exists front, args = front ++ [o].
Definition follows (args : list string) (o n : string) : Prop := exists front back, args = front ++ o :: n :: back.
Definition gives (args ps : list string) (v : string) : Prop :=
  exists p rest, In p ps /\ In (p +++ v +++ rest) args /\ no_eq v /\ (rest = "" \/ exists r, rest = String "=" r).

(** What is said about an option without its operand. *)
Definition operand_texts : list (string * string) :=
  [("--format", "Format requires a name! Example: --format parsable");
   ("-f", "Format requires a name! Example: --format parsable");
   ("--exclude", "Exclusion requires a name! Example: --exclude email.parser.FeedParser");
   ("--exclude-file", "Exclusion requires a file name! Example: --exclude-file '~/exclusions.txt'");
   ("--exclude-regex", "Exclusion requires a regex! Example: --exclude-regex '\.pyi$'");
   ("--backport", "Requires a backport name! Example: --backport typing");
   ("--feature", "Requires a feature name! Example: --feature fstring-self-doc");
   ("--config-file", "Requires config file path! Example: --config-file /path/to/vermin.ini");
   ("-c", "Requires config file path! Example: --config-file /path/to/vermin.ini")].

Definition known_backport (n : string) : Prop := In n (map (fun e => fst (fst e)) backports_table).
Definition known_feature (n : string) : Prop := In n (map fst features_table).
Definition known_format (n : string) : Prop := In n (map fst formats_table).
Definition a_target (v : string) : Prop := exists t, writes_target v t /\ in_range (snd t).

(** ** Config files *)

Definition bool_names : list string :=
  ["quiet"; "print_visits"; "ignore_incomp"; "pessimistic"; "show_tips"; "analyze_hidden"; "eval_annotations";
   "only_show_violations"; "parse_comments"; "scan_symlink_folders"; "make_paths_absolute"].
Definition has_text (sec : section) (o : string) : Prop := exists v, sec_get sec o = Ok (Some v).

(** A value that cannot be used at all. *)
Inductive bad_value (re_ok : string -> bool) (sec : section) : Prop :=
| bv_bool o : In o bool_names -> ~ has_text sec o -> bad_value re_ok sec
| bv_uint o : In o ["verbose"; "processes"] -> (forall n, ~ uint_opt sec o n) -> bad_value re_ok sec
| bv_list o : In o ["exclusions"; "exclusion_regex"; "backports"; "features"; "targets"; "format"] ->
    ~ has_text sec o -> bad_value re_ok sec
| bv_regex l x : list_opt sec "exclusion_regex" l -> In x l -> re_ok x = false -> bad_value re_ok sec.

(** What is wrong with the config file [f] that holds [x], and the lines that say so; [e] is Python's text. *)
Inductive file_fault (re_ok : string -> bool) (f e : string) : cfg_file -> list string -> Prop :=
| ff_unreadable : file_fault re_ok f e CfgUnreadable ["Could not load config file: " +++ f; e]
| ff_unparsable : file_fault re_ok f e CfgUnparsable ["Could not load config: " +++ f; e]
| ff_section : file_fault re_ok f e CfgNoSection ["Missing `[vermin]` section in config: " +++ f]
| ff_value sec : bad_value re_ok sec -> file_fault re_ok f e (CfgSection sec) ["Could not load config file: " +++ f; e]
| ff_backport sec l n : list_opt sec "backports" l -> In n l -> ~ known_backport n ->
    file_fault re_ok f e (CfgSection sec) ["Unknown backport: " +++ n]
| ff_feature sec l n : list_opt sec "features" l -> In n l -> ~ known_feature n ->
    file_fault re_ok f e (CfgSection sec) ["Unknown feature: " +++ n]
| ff_target sec l v : list_opt sec "targets" l -> In v l -> ~ a_target v ->
    file_fault re_ok f e (CfgSection sec) ["Invalid target: " +++ v]
| ff_third sec l v : list_opt sec "targets" l -> In v l -> (2 < List.length l)%nat ->
    file_fault re_ok f e (CfgSection sec) ["A maximum of two targets can be specified!"; "Invalid target: " +++ v]
| ff_format sec v : sec_get sec "format" = Ok (Some v) -> ~ known_format (strip v) ->
    file_fault re_ok f e (CfgSection sec) ["Unknown format: " +++ strip v].

(** The config file in use: the last one named, or else the detected one unless that is switched off. *)
Definition no_file_named (args : list string) : Prop := ~ In "--config-file" args /\ ~ In "-c" args.
Inductive in_use (cwd : string) (det : option string) (args : list string) : string -> Prop :=
| iu_named front o n back : In o ["--config-file"; "-c"] -> args = front ++ o :: n :: back -> no_file_named (n :: back) ->
    in_use cwd det args (abspath cwd n)
| iu_found f : det = Some f -> no_file_named args -> ~ In "--no-config-file" args -> in_use cwd det args f.

(** The targets of the config file in use, none without one. *)
Definition start_targets (cpus : Z) (re_ok : string -> bool) (cwd : string) (cfg : string -> cfg_file) (det : option string)
           (args : list string) (c : config) (ts : list target) : Prop :=
  (exists f c', in_use cwd det args f /\ parse_file cpus re_ok (cfg f) = Some c' /\ ts = c_targets c') \/
  ((forall f, ~ in_use cwd det args f) /\ ts = c_targets c).

(** Arguments that give a target. *)
Definition gives_target (a : string) : bool := startswith "-t=" a || startswith "--target=" a.

(** The suggestions for an unknown backport: every backport that differs only in the version behind "==". *)
Definition based_on (n b : string) : Prop := versioned n b \/ (b = n /\ forall x, ~ versioned n x).
Definition same_base (n m : string) : Prop := exists b, based_on n b /\ based_on m b.
Definition backport_entry (e : string * string * mins) : string * list string :=
  (fst (fst e), [snd (fst e) +++ " (" +++ mins_str ", " (snd e) +++ ")"]).
Inductive suggestion (n : string) : list string -> Prop :=
| sg_none : (forall m, known_backport m -> ~ same_base n m) -> suggestion n []
| sg_some es ls w : es <> [] -> (forall e, In e es <-> In e backports_table /\ same_base n (fst (fst e))) ->
    listing 2 w (map backport_entry es) ls -> suggestion n ["Did you mean one of the following?"; join nl ls].

(** ** Why a command line is refused, and the lines that say so. [c'] is the configuration in the end. *)
Inductive refusal (cpus : Z) (re_ok : string -> bool) (cwd : string) (cfg : string -> cfg_file) (err_text : string -> string)
          (det : option string) (args : list string) (c c' : config) : list string -> Prop :=
| rf_operand o t : comes_last args o -> In (o, t) operand_texts -> refusal cpus re_ok cwd cfg err_text det args c c' [t]
| rf_both : In "--no-config-file" args -> ~ no_file_named args ->
    refusal cpus re_ok cwd cfg err_text det args c c' ["--config-file cannot be used together with --no-config-file!"]
| rf_file f l : in_use cwd det args f -> file_fault re_ok f (err_text f) (cfg f) l ->
    refusal cpus re_ok cwd cfg err_text det args c c' l
| rf_target v : gives args ["-t="; "--target="] v -> ~ a_target v ->
    refusal cpus re_ok cwd cfg err_text det args c c' ["Invalid target: " +++ v]
| rf_third v ts : gives args ["-t="; "--target="] v -> start_targets cpus re_ok cwd cfg det args c ts ->
    (2 < List.length ts + List.length (filter gives_target args))%nat ->
    refusal cpus re_ok cwd cfg err_text det args c c'
      ["A maximum of two targets can be specified!"; "Invalid target: " +++ v]
| rf_number v : gives args ["-p="; "--processes="] v -> py_int v = None ->
    refusal cpus re_ok cwd cfg err_text det args c c' ["Invalid value: " +++ v]
| rf_positive v n : gives args ["-p="; "--processes="] v -> py_int v = Some n -> n <= 0 ->
    refusal cpus re_ok cwd cfg err_text det args c c' ["Non-positive number: " +++ z_str n]
| rf_format o n : In o ["--format"; "-f"] -> follows args o n -> ~ known_format (lower n) ->
    refusal cpus re_ok cwd cfg err_text det args c c' ["Unknown format: " +++ lower n]
| rf_backport n meant : follows args "--backport" n -> ~ known_backport n -> suggestion n meant ->
    refusal cpus re_ok cwd cfg err_text det args c c'
      (("Unknown backport: " +++ n) :: meant ++ ["Get the full list of backports via `--help`."])
| rf_feature n : follows args "--feature" n -> ~ known_feature n ->
    refusal cpus re_ok cwd cfg err_text det args c c' ["Unknown feature: " +++ n]
| rf_violations : c_only_show_violations c' = true -> c_targets c' = [] ->
    refusal cpus re_ok cwd cfg err_text det args c c' ["Showing violations requires target(s) to be specified!"]
| rf_quiet : c_quiet c' = true -> 0 < c_verbose c' -> c_only_show_violations c' = false ->
    refusal cpus re_ok cwd cfg err_text det args c c' ["Cannot use quiet and verbose modes together!"].

(** The exclusion files that could not be read, in order. *)
Fixpoint unread (excl_file : string -> option (list string)) (args : list string) : list string :=
  match args with
  | o :: ((n :: _) as r) =>
      (if String.eqb o "--exclude-file" then match excl_file n with None => [n] | Some _ => [] end else []) ++
      unread excl_file r
  | _ => []
  end.
