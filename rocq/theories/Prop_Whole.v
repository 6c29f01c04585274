(** C73: everything a run in the default format prints; and C56 for whole runs. *)
From Coq Require Import Sorting.Sorted.
From Verif Require Import PyBase PyLemmas Utility RulesData Rules Config Formats Paths Ini AstKinds Ast State Visitor
  MinVersions Parser Detection Arguments Pool Processor Main UsageData Usage Messages Spec_Base Spec_Utility Spec_Rules Spec_Config
  Spec_Detection Spec_Formats Spec_MinVersions Spec_Main Spec_Targets Spec_Args Spec_Messages Spec_Tips Spec_Valid Spec_Whole
  Proof_Strings Proof_Utility Proof_Rules Proof_Config Proof_Detection Proof_Formats Proof_MinVersions Proof_Main
  Proof_Report Proof_Parser Proof_Args Proof_Messages Proof_Tips Proof_Valid Proof_Whole Samples Samples_Tips Prop_Visitor Prop_Detection Prop_Main Prop_Tips.

(** About each file, in the order of the results: what a run prints between its first lines and its last. *)
Theorem c73_files : forall h major c file how n paths rs out s, analysed h major c file how paths rs -> toured rs -> 1 <= n -> c_format c = FDefault ->
  process h major c file how n paths = (out, Ok s) -> sections c zero_mins rs out.
Proof. intros h major c file how n paths rs out s A T N F E. exact (process_sections _ _ _ _ _ _ _ _ _ _ A T N F E). Qed.
Print Assumptions c73_files.

(** The end: the note on incompatible files, tips, versions, version range and targets, each if and only if it should be there, in that
    order and nothing else. *)
Theorem c73_report : forall c versions s, c_quiet c = false -> c_format c = FDefault -> ~ In (0, 0) (m_unique s) ->
  NoDup (m_bps s) -> Forall known_backport (m_bps s) -> report_ok (m_mins s) ->
  (forall t, In t (c_targets c) -> in_range (snd t)) ->
  exists lines code, report c versions s = Ok (lines, code) /\ report_text c versions s lines /\ (code = 0 \/ code = 1) /\ (code = 0 <-> passes c (m_mins s)).
Proof. exact report_whole. Qed.
Print Assumptions c73_report.

(** The whole run: texts of exclusion files that could not be read, the first lines, the files, the end. *)
Theorem c73_main : forall w prog err_text fuel args det c paths versions printed files rs,
  w_detected w = Ok det -> 0 < w_cpus w ->
  parse (w_cpus w) (w_re_ok w) (w_excl_file w) (w_cwd w) (w_cfg_file w) (Ok det) args (default_config (w_cpus w)) = Ok (c, OPaths paths versions printed) ->
  c_format c = FDefault -> found_files w c fuel paths = Some (Ok files) -> files <> [] -> w_major w <> 2 ->
  let lc := local_config c in
  analysed (w_hooks w) (w_major w) lc (w_file w) (w_ending w) files rs -> toured rs ->
  exists s front mid lines code,
    snd (process (w_hooks w) (w_major w) lc (w_file w) (w_ending w) (c_processes lc) files) = Ok s /\
    summarises rs s /\ increasing (m_unique s) /\
    whole_main w prog err_text fuel args =
      Some (print_lines (map err_text (unread (w_excl_file w) args)) +++ print_lines front +++ mid +++ print_lines lines, Ok code) /\
    front_lines c det args (List.length files) front /\ sections lc zero_mins rs mid /\
    (c_quiet c = true -> lines = []) /\ (c_quiet c = false -> report_text c versions s lines) /\
    (code = 0 \/ code = 1) /\ (code = 0 <-> passes c (m_mins s)).
Proof.
  intros w prog err_text fuel args det c paths versions printed files rs D Cp P Fm Ff NE Ma lc A T.
  assert (V : valid (w_re_ok w) c) by (eapply parse_valid; [exact Cp|exact P|apply v_default; exact Cp]). destruct V as [Vp _ _ _ _ [_ Vt]].
  rewrite Forall_forall in Vt.
  assert (N : 1 <= c_processes c) by lia.
  destruct (main_whole w prog err_text fuel args det c paths versions printed files rs D P Fm Ff NE Ma A T N Vt) as (s & front & mid & lines & code & H0 & H).
  exists s, front, mid, lines, code. split; [exact H0|].
  assert (Np : 1 <= c_processes lc) by (unfold lc; rewrite local_processes; exact N).
  destruct (process_ok _ _ _ _ _ _ _ _ A T Np) as (a & E & R). destruct (summary_facts lc rs a R) as (Su & Un & _).
  fold lc in H0. rewrite E in H0. cbn [snd] in H0. injection H0 as <-. split; [exact Su|]. split; [exact Un|]. exact H.
Qed.
Print Assumptions c73_main.

(** ** C56: all a quiet run prints are texts about exclusion files, and with only violations asked for, those. *)
Theorem c56_main : forall w prog err_text fuel args c paths versions printed out r,
  parse (w_cpus w) (w_re_ok w) (w_excl_file w) (w_cwd w) (w_cfg_file w) (w_detected w) args (default_config (w_cpus w)) = Ok (c, OPaths paths versions printed) ->
  c_quiet c = true -> c_format c = FDefault -> whole_main w prog err_text fuel args = Some (out, r) ->
  exists rest, out = print_lines (map err_text (unread (w_excl_file w) args)) +++ rest /\
    (rest = "" \/ c_only_show_violations c = true /\ exists files, found_files w c fuel paths = Some (Ok files) /\
       rest = fst (process (w_hooks w) (w_major w) (local_config c) (w_file w) (w_ending w) (c_processes (local_config c)) files)).
Proof.
  intros w prog err_text fuel args c paths versions printed out r P Q F H. unfold whole_main, opening in H.
  assert (K := parse_cases (w_cpus w) (w_re_ok w) (w_excl_file w) (w_cwd w) (w_cfg_file w) err_text (w_detected w) args (default_config (w_cpus w))).
  rewrite P in *. rewrite K in H. cbn [bindr] in H. assert (Pr := c56_parse _ _ _ _ _ _ _ _ _ _ _ _ P Q). subst printed.
  unfold main in H. rewrite P, F in H. cbn [fmt_eqb] in H. unfold vprint in H. rewrite verbose_quiet in H by exact Q. cbn [app] in H.
  destruct (found_files w c fuel paths) as [[files|x]|] eqn:E; [| |discriminate H].
  - assert (G := run_quiet_gen w c versions files Q F). assert (O := fun V => proj1 (c56_quiet w c versions files Q F V)).
    destruct (run_files w c versions files) as [o rr]. cbn [option_map fst snd] in *. injection H as <- <-. exists o.
    split; [reflexivity|]. destruct (c_only_show_violations c); [|left; auto]. destruct files as [|f fs]; [left; exact G|].
    right. split; [reflexivity|]. exists (f :: fs). split; [reflexivity|exact G].
  - cbn [option_map fst snd] in H. injection H as <- <-. exists "". split; [reflexivity|left; reflexivity].
Qed.
Print Assumptions c56_main.

(** ** Three files that cannot all be met, a found config file, and an exclusion file that is not there. *)
Definition whole_stat (p : string) : option fkind :=
  if mem p ["two.py"; "three.py"; "a.py"; "ann.py"; "/w/two.py"; "/w/three.py"; "/w/a.py"; "/w/ann.py"] then Some KReg else None.
Definition whole_source (p : string) : fcontent :=
  if String.eqb p "/w/a.py" then tip_files "a.py" else if String.eqb p "/w/two.py" then tip_files "two.py"
  else if String.eqb p "/w/three.py" then tip_files "three.py" else if String.eqb p "/w/ann.py" then tip_files "ann.py" else tip_files p.
Definition whole_world : world :=
  mkWorld 4 3 "/w" (mkFs whole_stat whole_stat (fun _ => None) (fun _ => None)) (fun _ => true)
          (fun _ _ => false) (fun _ => None) (fun _ => CfgSection (section_of 4 [("verbose", Some "1")])) (Ok (Some "/w/vermin.ini")) whole_source all_done no_hooks.
Definition whole_args : list string := ["-vv"; "--exclude-file"; "gone"; "--versions"; "-t=2.7"; "a.py"; "two.py"; "three.py"].
Definition whole_config (args : list string) : config :=
  match parse 4 (fun _ => true) (fun _ => None) "/w" (w_cfg_file whole_world) (w_detected whole_world) args (default_config 4) with
  | Ok (c, _) => c | Err _ => cfg0 end.
Definition whole_results (c : config) (paths : list string) : list (option presult) :=
  flat_map (fun p => match snd (process_individual no_hooks 3 c p (whole_source p) EndDone) with Ok r => [r] | Err _ => [] end) paths.
Definition cannot (f : string) : string := "cannot read " +++ f.
Example c73_case :
  let w := whole_world in let c := whole_config whole_args in let files := ["/w/a.py"; "/w/three.py"; "/w/two.py"] in
  let rs := whole_results (local_config c) files in
  w_detected w = Ok (Some "/w/vermin.ini") /\ 0 < w_cpus w /\
  parse (w_cpus w) (w_re_ok w) (w_excl_file w) (w_cwd w) (w_cfg_file w) (Ok (Some "/w/vermin.ini")) whole_args (default_config (w_cpus w))
    = Ok (c, OPaths ["a.py"; "two.py"; "three.py"] true ["Using detected config: /w/vermin.ini"]) /\
  c_format c = FDefault /\ found_files w c 3 ["a.py"; "two.py"; "three.py"] = Some (Ok files) /\
  analysed (w_hooks w) (w_major w) (local_config c) (w_file w) (w_ending w) files rs /\ toured rs /\
  whole_main w "vermin" cannot 3 whole_args = Some (print_lines
    ["cannot read gone"; "Using detected config: /w/vermin.ini"; "Detecting python files.."; "Analyzing 3 files using 4 processes..";
     "2.7, 3.2     /w/a.py"; "  'argparse' module requires 2.7, 3.2"; "";
     "!2, 3.0      /w/three.py"; "  'configparser' module requires !2, 3.0"; "";
     "2.0, !3      /w/two.py"; "  'ConfigParser' module requires 2.0, !3"; "";
     "File with incompatible versions: /w/two.py"; "  'ConfigParser' module requires 2.0, !3"; "";
     "Note: Some files had incompatible versions so the results might not be correct!";
     "Tips:"; "- You're using potentially backported modules: argparse, configparser";
     "  If so, try using the following for better results: --backport argparse --backport configparser";
     "- Since '# novm' or '# novermin' weren't used, a speedup can be achieved using: --no-parse-comments";
     "(disable using: --no-tips)"; ""; "Minimum required versions: 3.2"; "Incompatible versions:     2";
     "Version range:             2.0, 2.7, 3.0, 3.2"; "Target versions not met:   2.7"], Ok 1).
Proof.
  cbv zeta. split; [run|]. split; [reflexivity|]. split; [run|]. split; [run|]. split; [run|]. split; [analyse|].
  split.
  - intros r I. revert I. vm_compute. intros [E|[E|[E|[]]]]; injection E as <-; discriminate.
  - run.
Qed.

(** Quiet: the text about the exclusion file is all there is. *)
Example c56_main_case :
  let args := ["--no-config-file"; "-q"; "--exclude-file"; "gone"; "a.py"; "ann.py"] in
  c_quiet (whole_config args) = true /\ c_format (whole_config args) = FDefault /\
  whole_main whole_world "vermin" cannot 3 args = Some (print_lines ["cannot read gone"], Ok 0) /\
  (exists out, whole_main whole_world "vermin" cannot 3 ["-q"; "--violations"; "-t=2.6"; "a.py"] = Some (out, Ok 1) /\
     out = print_lines ["2.7, 3.2     /w/a.py"; "  'argparse' module requires 2.7, 3.2"; ""]).
Proof. cbv zeta. split; [run|]. split; [run|]. split; [run|]. eexists. split; [vm_compute; reflexivity|]. vm_compute. reflexivity. Qed.
