(** C19 and C23-C27: the command line. *)
From Verif Require Import PyBase PyLemmas Utility RulesData Rules Config Paths Formats Arguments
  Spec_Base Spec_Utility Proof_Utility Spec_Config Proof_Config Spec_Args Proof_Args.

Notation no_files := (fun _ : string => @None (list string)).
Notation all_re := (fun _ : string => true).
Notation no_cfg := (fun _ : string => CfgUnreadable).

(** ** C19: false of the code. A config file chooses the parsable format and the command line lowers
    the verbosity. *)
Theorem c19_parsable_settings_refuted : exists cpus re_ok ef cwd cfg det args c c' ps v pr,
  reach cpus re_ok c /\
  parse cpus re_ok ef cwd cfg det args c = Ok (c', OPaths ps v pr) /\ ~ parsable_settings c'.
Proof.
  exists 4, all_re, no_files, "/w", (fun _ => CfgSection (section_of 4 [("format", Some "parsable")])),
    (Ok (Some "/w/vermin.ini")), ["-v"; "--no-ignore"; "x.py"], (default_config 4).
  eexists _, _, _, _. split; [constructor|]. split; [vm_compute; reflexivity|].
  unfold parsable_settings. vm_compute. intros H. destruct (H eq_refl) as [_ [K _]]. discriminate.
Qed.
Print Assumptions c19_parsable_settings_refuted.

(** Whenever a command line names the format, the settings hold, whatever else is given. *)
Theorem c19_format_argument : forall cpus re_ok ef cwd cfg det args c c' ps v pr,
  parse cpus re_ok ef cwd cfg det args c = Ok (c', OPaths ps v pr) ->
  In "--format" args \/ In "-f" args -> parsable_settings c'.
Proof. exact format_argument_settings. Qed.
Print Assumptions c19_format_argument.

(** If only the config file chose it, they hold unless an option lowers one of them. *)
Theorem c19_config_file_partial : forall cpus re_ok ef cwd cfg det l c c0 o c' ps v pr,
  l <> [] -> Forall (item_ok ef) l ->
  base cpus re_ok cfg cwd det c l c0 -> all_accepted cpus re_ok c0 (cmds l) -> last_format l o ->
  parsable_settings c0 -> Forall keeps_settings (cmds l) ->
  parse cpus re_ok ef cwd cfg (Ok det) (command_line l) c = Ok (c', OPaths ps v pr) -> parsable_settings c'.
Proof. exact kept_settings. Qed.
Print Assumptions c19_config_file_partial.

Example c19_args_case :
  exists c' ps v pr,
    parse 4 all_re no_files "/w" no_cfg (Ok None) ["--format"; "Parsable"; "-v"; "--no-ignore"; "x.py"] (default_config 4)
      = Ok (c', OPaths ps v pr) /\ c_verbose c' = 3 /\ c_ignore_incomp c' = true /\ ps = ["x.py"].
Proof. eexists _, _, _, _. split; [vm_compute; reflexivity|]. vm_compute. auto. Qed.

(** ** C23 *)
(** Operands that do not look like options (part of [option_means]). *)
Theorem c23_options_then_paths_partial : forall cpus re_ok ef cwd cfg det opts paths c c0 o,
  let l := opts ++ map IPath paths in
  Forall (fun i => exists w e, i = IOpt w e /\ option_means ef w e) opts -> Forall plain_arg paths -> l <> [] ->
  base cpus re_ok cfg cwd det c l c0 -> all_accepted cpus re_ok c0 (cmds l) -> last_format l o ->
  let c2 := with_format o (run_cmds cpus re_ok (cmds l) c0) in
  (refused c2 -> exists c', parse cpus re_ok ef cwd cfg (Ok det) (command_line l) c = Ok (c', OCode 1)) /\
  (~ refused c2 -> exists v printed,
     parse cpus re_ok ef cwd cfg (Ok det) (command_line l) c = Ok (used c2, OPaths paths v printed) /\
     (v = true <-> wants_versions l /\ c_format c2 = FDefault)).
Proof.
  intros cpus re_ok ef cwd cfg det opts paths c c0 o l F P N B A LF c2.
  assert (FI : Forall (item_ok ef) l).
  { unfold l. apply Forall_app. split.
    - eapply Forall_impl; [|exact F]. intros i [w [e [-> M]]]. exact M.
    - clear - P. induction P; cbn; constructor; auto. }
  assert (E : skipn (option_words l) (command_line l) = paths).
  { apply options_first. eapply Forall_impl; [|exact F]. intros i [w [e [-> _]]]. eauto. }
  destruct (parse_items cpus re_ok ef cwd cfg det l c c0 o N FI B A LF) as [H1 H2].
  rewrite E in H2. split; auto.
Qed.
Print Assumptions c23_options_then_paths_partial.

(** An option that asks for something invalid stops the parsing. *)
Theorem c23_invalid_option_refused : forall cpus re_ok ef l w m s rest, Forall (item_ok ef) l ->
  all_accepted cpus re_ok (p_config s) (cmds l) -> option_means ef w (ECmd m) ->
  (List.length (c_targets (run_cmds cpus re_ok (cmds l) (p_config s))) <= 2)%nat ->
  ~ accepted re_ok (run_cmds cpus re_ok (cmds l) (p_config s)) m ->
  parse_loop cpus re_ok ef (command_line l ++ w ++ rest) s = SFail \/
  exists e, parse_loop cpus re_ok ef (command_line l ++ w ++ rest) s = SRaise e.
Proof. exact loop_refused. Qed.
Print Assumptions c23_invalid_option_refused.

(** False of the code for operands that look like options: they are read again as options. *)
Theorem c23_operand_reread_refuted : exists cpus re_ok ef cwd cfg o p c' ps v pr,
  plain_arg p /\
  parse cpus re_ok ef cwd cfg (Ok None) ["--exclude"; o; p] (default_config cpus) = Ok (c', OPaths ps v pr) /\
  c_quiet c' <> c_quiet (default_config cpus) /\ ~ In p ps.
Proof.
  exists 4, all_re, no_files, "/w", no_cfg, "-q", "x.py". eexists _, _, _, _.
  split; [discriminate|]. split; [vm_compute; reflexivity|]. vm_compute. split; [discriminate|auto].
Qed.
Print Assumptions c23_operand_reread_refuted.

(** "--no-config-file" is read as an option but stays among the paths. *)
Theorem c23_no_config_file_is_a_path_refuted : exists cpus re_ok ef cwd cfg c' ps v pr,
  parse cpus re_ok ef cwd cfg (Ok None) ["--no-config-file"; "x.py"] (default_config cpus) = Ok (c', OPaths ps v pr) /\
  In "--no-config-file" ps.
Proof.
  exists 4, all_re, no_files, "/w", no_cfg. eexists _, _, _, _. split; [vm_compute; reflexivity|]. simpl. auto.
Qed.
Print Assumptions c23_no_config_file_is_a_path_refuted.

Example c23_case :
  let opts := [IOpt ["-q"] (ECmd (CmdQuiet true)); IOpt ["-t=2.7"] (ECmd (CmdAddTarget (TStr "2.7")));
               IOpt ["--no-target"] (ECmd CmdClearTargets); IOpt ["-t=3.4-"] (ECmd (CmdAddTarget (TStr "3.4-")));
               IOpt ["--no-quiet"] (ECmd (CmdQuiet false)); IOpt ["-vv"] (ECmd (CmdVerbose 2));
               IOpt ["--backport"; "enum"] (ECmd (CmdAddBackport "enum"))] in
  Forall (fun i => exists w e, i = IOpt w e /\ option_means no_files w e) opts /\
  all_accepted 4 all_re (default_config 4) (cmds opts) /\
  exists c' v pr, parse 4 all_re no_files "/w" no_cfg (Ok None) (command_line (opts ++ map IPath ["a"; "b.py"])) (default_config 4)
    = Ok (c', OPaths ["a"; "b.py"] v pr) /\ c_targets c' = [(false, (3, 4))] /\ c_quiet c' = false /\
      c_verbose c' = 2 /\ c_backports c' = ["enum"].
Proof.
  cbv zeta. split; [|split].
  - assert (FL : forall w m, In (w, m) flag_options -> option_means no_files [w] (ECmd m)) by (intros; constructor; auto).
    repeat (apply Forall_cons; [eexists _, _; split; [reflexivity|]; try (apply FL; simpl; tauto)|]); try apply Forall_nil.
    + apply (om_target no_files "-t=" "2.7"); [simpl; tauto|]. unfold no_eq. simpl. intuition discriminate.
    + apply (om_target no_files "-t=" "3.4-"); [simpl; tauto|]. unfold no_eq. simpl. intuition discriminate.
    + apply (om_verbose no_files 2). lia.
    + apply om_backport. discriminate.
  - assert (T : forall s t, parse_target s = Some t -> exists t, arg_target (TStr s) t).
    { intros s t E. exists t. apply parse_target_iff in E. constructor; tauto. }
    repeat (apply aa_cons); try apply aa_nil; try exact I.
    + split; [cbn; lia|]. eapply T. vm_compute. reflexivity.
    + split; [cbn; lia|]. eapply T. vm_compute. reflexivity.
    + apply is_backport_iff. vm_compute. reflexivity.
  - eexists _, _, _. split; [vm_compute; reflexivity|]. vm_compute. auto.
Qed.

(** ** C24: false of the code, a path before an option is dropped. *)
Theorem c24_every_path_refuted : exists cpus re_ok ef cwd cfg p o c' ps v pr,
  plain_arg p /\ option_means ef [o] (ECmd (CmdQuiet true)) /\
  parse cpus re_ok ef cwd cfg (Ok None) [p; o] (default_config cpus) = Ok (c', OPaths ps v pr) /\ ~ In p ps.
Proof.
  exists 4, all_re, no_files, "/w", no_cfg, "foo.py", "-q". eexists _, _, _, _.
  split; [discriminate|]. split; [constructor; simpl; tauto|]. split; [vm_compute; reflexivity|].
  simpl. intuition discriminate.
Qed.
Print Assumptions c24_every_path_refuted.

(** What holds for options and paths in any order: of the arguments, as many as there are options and
    operands are dropped from the front, and the rest are the paths. *)
Theorem c24_paths_exactly_partial : forall cpus re_ok ef cwd cfg det l c c0 o, l <> [] -> Forall (item_ok ef) l ->
  base cpus re_ok cfg cwd det c l c0 -> all_accepted cpus re_ok c0 (cmds l) -> last_format l o ->
  let c2 := with_format o (run_cmds cpus re_ok (cmds l) c0) in
  ~ refused c2 -> exists v printed,
    parse cpus re_ok ef cwd cfg (Ok det) (command_line l) c =
      Ok (used c2, OPaths (skipn (option_words l) (command_line l)) v printed).
Proof.
  intros cpus re_ok ef cwd cfg det l c c0 o N F B A LF c2 R.
  destruct (parse_items cpus re_ok ef cwd cfg det l c c0 o N F B A LF) as [_ H].
  destruct (H R) as [v [pr [E _]]]. eauto.
Qed.
Print Assumptions c24_paths_exactly_partial.

Example c24_case : exists c' v pr,
  parse 4 all_re no_files "/w" no_cfg (Ok None) ["a.py"; "--exclude"; "m"; "b.py"; "c.py"] (default_config 4)
    = Ok (c', OPaths ["m"; "b.py"; "c.py"] v pr).
Proof. eexists _, _, _. vm_compute. reflexivity. Qed.

(** ** C25 *)
Theorem c25_checks_hold : forall cpus re_ok ef cwd cfg det args c c' ps v pr,
  parse cpus re_ok ef cwd cfg det args c = Ok (c', OPaths ps v pr) ->
  (c_only_show_violations c' = true -> c_targets c' <> [] /\ 2 <= c_verbose c') /\
  (c_quiet c' = true -> 0 < c_verbose c' -> c_only_show_violations c' = true) /\
  (c_format c' = FParsable -> v = false).
Proof. exact checks_hold. Qed.
Print Assumptions c25_checks_hold.

(** Refused exactly then, once the options are read. *)
Theorem c25_refused_iff : forall args note s,
  let c := with_format (p_fmt s) (p_config s) in
  (refused c -> exists c', finish args note s = (c', OCode 1)) /\
  (~ refused c -> exists printed,
     finish args note s = (used c, OPaths (skipn (p_pos s) args)
                              (match c_format c with FParsable => false | FDefault => p_versions s end) printed)).
Proof. exact finish_spec. Qed.
Print Assumptions c25_refused_iff.

Example c25_case :
  (exists c', parse 4 all_re no_files "/w" no_cfg (Ok None) ["--violations"; "x"] (default_config 4) = Ok (c', OCode 1)) /\
  (exists c', parse 4 all_re no_files "/w" no_cfg (Ok None) ["-q"; "-v"; "x"] (default_config 4) = Ok (c', OCode 1)) /\
  (exists c' v pr, parse 4 all_re no_files "/w" no_cfg (Ok None) ["--violations"; "-t=3.4"; "-q"; "x"] (default_config 4)
     = Ok (c', OPaths ["x"] v pr) /\ c_verbose c' = 2).
Proof.
  split; [|split]; [eexists; vm_compute; reflexivity | eexists; vm_compute; reflexivity |].
  eexists _, _, _. split; [vm_compute; reflexivity|]. reflexivity.
Qed.

(** ** C26 *)
(** The options act on the configuration of the config file in use ([base] says which one). *)
Theorem c26_options_override_file : forall cpus re_ok ef cwd cfg det l c c0 o, l <> [] -> Forall (item_ok ef) l ->
  base cpus re_ok cfg cwd det c l c0 -> all_accepted cpus re_ok c0 (cmds l) -> last_format l o ->
  let c2 := with_format o (run_cmds cpus re_ok (cmds l) c0) in
  (refused c2 -> exists c', parse cpus re_ok ef cwd cfg (Ok det) (command_line l) c = Ok (c', OCode 1)) /\
  (~ refused c2 -> exists ps v printed,
     parse cpus re_ok ef cwd cfg (Ok det) (command_line l) c = Ok (used c2, OPaths ps v printed)).
Proof.
  intros cpus re_ok ef cwd cfg det l c c0 o N F B A LF c2.
  destruct (parse_items cpus re_ok ef cwd cfg det l c c0 o N F B A LF) as [H1 H2]. split; auto.
  intros R. destruct (H2 R) as [v [pr [E _]]]. eauto.
Qed.
Print Assumptions c26_options_override_file.

Theorem c26_named_file_wins : forall cpus re_ok ef cwd cfg d d' l c f, l <> [] -> Forall (item_ok ef) l ->
  last_config l (Some f) ->
  match parse cpus re_ok ef cwd cfg (Ok d) (command_line l) c, parse cpus re_ok ef cwd cfg (Ok d') (command_line l) c with
  | Ok x, Ok y => x = y
  | Err x, Err y => x = y
  | _, _ => False
  end.
Proof. exact named_file_wins. Qed.
Print Assumptions c26_named_file_wins.

Theorem c26_conflict_refused : forall cpus re_ok ef cwd cfg det l c f, l <> [] -> Forall (item_ok ef) l ->
  last_config l (Some f) -> wants_no_config l ->
  parse cpus re_ok ef cwd cfg (Ok det) (command_line l) c = Ok (c, OCode 1).
Proof. exact parse_conflict. Qed.
Print Assumptions c26_conflict_refused.

Theorem c26_broken_file_stops : forall cpus re_ok ef cwd cfg det l c, l <> [] -> Forall (item_ok ef) l ->
  ~ wants_no_config l ->
  (exists f, last_config l (Some f) /\ parse_file cpus re_ok (cfg (abspath cwd f)) = None) \/
  (exists f, last_config l None /\ det = Some f /\ parse_file cpus re_ok (cfg f) = None) ->
  parse cpus re_ok ef cwd cfg (Ok det) (command_line l) c = Ok (c, OCode 1).
Proof. exact parse_broken_file. Qed.
Print Assumptions c26_broken_file_stops.

Example c26_case :
  let cfg f := if String.eqb f "/w/a.ini" then CfgSection (section_of 4 [("pessimistic", Some "yes"); ("show_tips", Some "no")])
               else CfgSection (section_of 4 [("quiet", Some "yes")]) in
  exists c' v pr, parse 4 all_re no_files "/w" cfg (Ok (Some "/w/vermin.ini")) ["--show-tips"; "-c"; "a.ini"; "x"] (default_config 4)
    = Ok (c', OPaths ["x"] v pr) /\ c_pessimistic c' = true /\ c_quiet c' = false /\ c_show_tips c' = true.
Proof. eexists _, _, _. split; [vm_compute; reflexivity|]. vm_compute. auto. Qed.

(** ** C27: false of the code. Detection runs first, and a file that raises something other than a
    ParsingError ends the run even with --no-config-file or --help. *)
Theorem c27_protected_refuted : exists cpus re_ok ef cwd cfg candidate exists_in folder args c,
  In "--no-config-file" args /\
  match detect_config_file candidate exists_in folder with
  | Err e => parse cpus re_ok ef cwd cfg (Err e) args c = Err e
  | Ok _ => False
  end.
Proof.
  exists 4, all_re, no_files, "/w", no_cfg,
    (fun _ n => if String.eqb n "vermin.ini" then PrOtherError else PrAbsent), (fun _ _ => false), ["w"],
    ["--no-config-file"; "x.py"], (default_config 4).
  split; [simpl; auto|]. vm_compute. reflexivity.
Qed.
Print Assumptions c27_protected_refuted.

Theorem c27_help_refuted : exists cpus re_ok ef cwd cfg e c,
  parse cpus re_ok ef cwd cfg (Err e) ["--help"] c = Err e.
Proof. exists 4, all_re, no_files, "/w", no_cfg, ConfigError, (default_config 4). reflexivity. Qed.
Print Assumptions c27_help_refuted.

(** When detection itself gets through, nothing in the files matters any more. *)
Theorem c27_no_config_file_partial : forall cpus re_ok ef cwd cfg cfg' d d' args c, In "--no-config-file" args ->
  parse cpus re_ok ef cwd cfg (Ok d) args c = parse cpus re_ok ef cwd cfg' (Ok d') args c.
Proof. exact no_config_independent. Qed.
Print Assumptions c27_no_config_file_partial.

Theorem c27_help_partial : forall cpus re_ok ef cwd cfg d a h b c, In h ["--help"; "-h"] ->
  (forall x, In x a -> ~ In x ["--version"; "-V"]) ->
  parse cpus re_ok ef cwd cfg (Ok d) (a ++ h :: b) c = Ok (c, OUsage 0 true).
Proof. exact help_independent. Qed.
Print Assumptions c27_help_partial.
