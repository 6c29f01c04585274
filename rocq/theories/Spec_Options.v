(** Settings given by options and settings given by a config file (C68). *)
From Verif Require Import PyBase Utility RulesData Rules Config Arguments Main Spec_Base Spec_Utility Spec_Config Spec_Ini.

(** A configuration as options: every setting that an option can give. Verbosity 0 has none. *)
Definition one_of (b : bool) (on off : string) : string := if b then on else off.
Fixpoint many_v (n : nat) : string := match n with O => "" | S k => String "v" (many_v k) end.
Definition each (o : string) (l : list string) : list string := flat_map (fun x => [o; x]) l.
Definition spelled (c : config) : list string :=
  [one_of (c_quiet c) "--quiet" "--no-quiet"; one_of (c_print_visits c) "--dump" "--no-dump"; "-p=" +++ z_str (c_processes c);
   one_of (c_ignore_incomp c) "--ignore" "--no-ignore"; one_of (c_pessimistic c) "--pessimistic" "--no-pessimistic";
   one_of (c_show_tips c) "--show-tips" "--no-tips"; one_of (c_analyze_hidden c) "--hidden" "--no-hidden";
   one_of (c_make_paths_absolute c) "--make-paths-absolute" "--no-make-paths-absolute";
   one_of (c_eval_annotations c) "--eval-annotations" "--no-eval-annotations";
   one_of (c_only_show_violations c) "--violations" "--no-violations";
   one_of (c_parse_comments c) "--parse-comments" "--no-parse-comments";
   one_of (c_scan_symlink_folders c) "--scan-symlink-folders" "--no-symlink-folders"] ++
  (if 0 <? c_verbose c then ["-" +++ many_v (Z.to_nat (c_verbose c))] else []) ++
  each "--exclude" (exclusions c) ++ each "--exclude-regex" (exclusion_regex c) ++
  each "--backport" (c_backports c) ++ each "--feature" (c_features c) ++
  map (fun t : target => "-t=" +++ ver_str (snd t) +++ (if fst t then "" else "-")) (c_targets c) ++
  match c_format c with FDefault => [] | FParsable => ["--format"; "parsable"] end.

(** Arguments that do not look like options. *)
Definition undashed (a : string) : Prop := forall r, a <> String "-" r.
(** What can stand behind the options: with the default format anything but the choice of a config file, with
    the other only files and folders. *)
Definition behind (c : config) (rest : list string) : Prop :=
  match c_format c with
  | FDefault => forall a, In a rest -> ~ In a ["-c"; "--config-file"; "--no-config-file"]
  | FParsable => Forall undashed rest
  end.

(** The same machine and files, but for the config file in reach. *)
Definition reaching (d : option string) (w : world) : world :=
  mkWorld (w_cpus w) (w_major w) (w_cwd w) (w_fs w) (w_re_ok w) (w_search w) (w_excl_file w) (w_cfg_file w) (Ok d)
          (w_file w) (w_ending w) (w_hooks w).

(** The same outcome, but for the line that tells which config file was found. *)
Definition same_but_note (f : string) (x y : option outcome) : Prop :=
  y = x \/ exists out r, x = Some (out, r) /\ y = Some ("Using detected config: " +++ f +++ nl +++ out, r).
