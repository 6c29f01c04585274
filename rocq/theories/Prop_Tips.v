(** C72: the tips at the end of a run are true, and taking one does what it says. *)
From Coq Require Import Sorting.Sorted.
From Verif Require Import PyBase PyLemmas Utility RulesData Rules Config Formats Paths Ini AstKinds Ast State Visitor MinVersions Parser
  Detection Arguments Pool Processor Main Spec_Base Spec_Utility Spec_Rules Spec_Config Spec_Ini Spec_Detection Spec_Formats Spec_MinVersions
  Spec_Main Spec_Same Spec_Args Spec_Messages Spec_Fewer Spec_Tips Proof_Main Proof_Less Proof_Options Proof_Tips Prop_Detection Prop_Main
  Proof_Rules Proof_Config Samples Samples_Tips.

(** Annotations might be in use that are not evaluated. *)
Theorem c72_annotations : forall h major c file how n paths rs versions,
  analysed h major (local_config c) file how paths rs -> toured rs -> 1 <= n -> c_format c = FDefault -> c_quiet c = false ->
  exists out s, process h major (local_config c) file how n paths = (out, Ok s) /\ forall lines code, report c versions s = Ok (lines, code) ->
    (In annotations_tip lines <-> c_show_tips c = true /\ c_eval_annotations c = false /\ may_annotate rs).
Proof.
  intros h major c file how n paths rs versions A T N F Q. destruct (process_counts _ _ _ _ _ _ _ _ A T N) as (out & s & P & Su & Nd).
  exists out, s. split; [exact P|]. intros lines code R. eapply annotations_shown; eassumption.
Qed.
Print Assumptions c72_annotations.

(** Backports are in use that were not asked for. They are named once each and in order, and all can be asked for. *)
Theorem c72_backports : forall h major c file how n paths rs versions,
  analysed h major (local_config c) file how paths rs -> toured rs -> 1 <= n -> c_format c = FDefault -> c_quiet c = false ->
  exists out s, process h major (local_config c) file how n paths = (out, Ok s) /\ forall lines code, report c versions s = Ok (lines, code) ->
    exists ns, to_suggest c rs ns /\ Forall known_backport ns /\ (In (backports_tip ns) lines <-> c_show_tips c = true /\ ns <> []) /\
      (forall t, In (backports_said +++ t) lines -> backports_said +++ t = backports_tip ns).
Proof.
  intros h major c file how n paths rs versions A T N F Q. destruct (process_counts _ _ _ _ _ _ _ _ A T N) as (out & s & P & Su & Nd).
  exists out, s. split; [exact P|]. intros lines code R. eapply backports_shown; eassumption.
Qed.
Print Assumptions c72_backports.

(** The backports a file is said to use are the known ones among the modules recorded while its tree was read. *)
Theorem c72_modules : forall h major c file p how r m, snd (process_individual h major c p (file p) how) = Ok (Some r) -> r_mins r = MVers m ->
  forall b, In b (r_bps r) <-> known_backport b /\ exists source ps node nov e s,
    file p = FcSource source ps /\ parser_detect major c ps = DTree node nov /\ make_visitor h c p source nov = Ok e /\
    tour e node = Ok s /\ In b (s_modules s).
Proof. exact result_modules. Qed.
Print Assumptions c72_modules.

(** No file with a verdict has a line that is left out by a comment. *)
Theorem c72_comments : forall h major c file how n paths rs versions,
  analysed h major (local_config c) file how paths rs -> toured rs -> 1 <= n -> c_format c = FDefault -> c_quiet c = false ->
  exists out s, process h major (local_config c) file how n paths = (out, Ok s) /\ forall lines code, report c versions s = Ok (lines, code) ->
    (In comments_tip lines <-> c_show_tips c = true /\ c_parse_comments c = true /\ ~ comment_used rs).
Proof.
  intros h major c file how n paths rs versions A T N F Q. destruct (process_counts _ _ _ _ _ _ _ _ A T N) as (out & s & P & Su & Nd).
  exists out, s. split; [exact P|]. intros lines code R. eapply comments_shown; eassumption.
Qed.
Print Assumptions c72_comments.

Theorem c72_no_other : forall h major c file how n paths rs versions,
  analysed h major (local_config c) file how paths rs -> toured rs -> 1 <= n -> c_format c = FDefault -> c_quiet c = false ->
  exists out s, process h major (local_config c) file how n paths = (out, Ok s) /\ forall lines code, report c versions s = Ok (lines, code) ->
    forall t, In ("- " +++ t) lines -> "- " +++ t = annotations_tip \/ "- " +++ t = comments_tip \/ exists ns, "- " +++ t = backports_tip ns.
Proof.
  intros h major c file how n paths rs versions A T N F Q. destruct (process_counts _ _ _ _ _ _ _ _ A T N) as (out & s & P & Su & Nd).
  exists out, s. split; [exact P|]. intros lines code R. eapply no_other_tip; eassumption.
Qed.
Print Assumptions c72_no_other.

(** The options of a tip are understood: put before the paths, they change one setting and nothing else. *)
Theorem c72_options_backports : forall cpus re_ok ef cwd cfg det opts paths c c0 o bs, let l := opts ++ map IPath paths in
  Forall (fun i => exists w e, i = IOpt w e /\ option_means ef w e) opts -> Forall plain_arg paths -> l <> [] ->
  base cpus re_ok cfg cwd det c l c0 -> all_accepted cpus re_ok c0 (cmds l) -> last_format l o ->
  ~ refused (with_format o (run_cmds cpus re_ok (cmds l) c0)) -> Forall known_backport bs ->
  exists c1 v printed printed',
    parse cpus re_ok ef cwd cfg (Ok det) (command_line opts ++ paths) c = Ok (c1, OPaths paths v printed) /\
    parse cpus re_ok ef cwd cfg (Ok det) (command_line opts ++ backport_options bs ++ paths) c =
      Ok (w_backports (add_all bs (c_backports c1)) c1, OPaths paths v printed').
Proof. exact follow_backports. Qed.
Print Assumptions c72_options_backports.

Theorem c72_options_flags : forall cpus re_ok ef cwd cfg det opts paths c c0 o w m f, let l := opts ++ map IPath paths in
  Forall (fun i => exists w e, i = IOpt w e /\ option_means ef w e) opts -> Forall plain_arg paths -> l <> [] ->
  base cpus re_ok cfg cwd det c l c0 -> all_accepted cpus re_ok c0 (cmds l) -> last_format l o ->
  ~ refused (with_format o (run_cmds cpus re_ok (cmds l) c0)) ->
  In (w, m, f) [("--eval-annotations", CmdEvalAnnotations true, w_eval_annotations true);
                ("--no-parse-comments", CmdParseComments false, w_parse_comments false)] ->
  exists c1 v printed printed',
    parse cpus re_ok ef cwd cfg (Ok det) (command_line opts ++ paths) c = Ok (c1, OPaths paths v printed) /\
    parse cpus re_ok ef cwd cfg (Ok det) (command_line opts ++ [w] ++ paths) c = Ok (f c1, OPaths paths v printed').
Proof. exact follow_flag. Qed.
Print Assumptions c72_options_flags.

(** Saying that the backports are there: the verdict gets no stricter, and nothing is left to suggest about backports.
    Missing: [typing_extensions] ([c72_extensions_refuted]), and runs with files that exclude each other. *)
Theorem c72_backports_taken_partial : forall h major c file how n paths rs out s ns lc, lc = local_config c ->
  analysed h major lc file how paths rs -> toured rs -> 1 <= n -> targets_given c ->
  process h major lc file how n paths = (out, Ok s) -> m_incomp s = false -> to_suggest c rs ns ->
  (forall b x, backport_used rs b -> ~ versioned b x) -> (forall b t, In b ns -> b <> "typing_extensions" +++ t) ->
  let c' := w_backports (add_all ns (c_backports c)) c in
  exists out' s', process h major (local_config c') file how n paths = (out', Ok s') /\ mins_le (m_mins s') (m_mins s) /\
    (forall b, In b (m_bps s') -> enabled c' b) /\ m_maybe s' = m_maybe s /\ m_novm s' = m_novm s.
Proof. exact backports_gone. Qed.
Print Assumptions c72_backports_taken_partial.

(** Reading no comments: the summary of the run stays as it is when no file uses them.
    Missing: the tip is shown too when the only files to use them have contradictory findings ([c72_comments_refuted]). *)
Theorem c72_comments_taken_partial : forall h major c file how n paths rs out s, analysed h major c file how paths rs -> targets_given c ->
  c_parse_comments c = true -> (forall p, In p paths -> read_well (file p)) -> (forall r, In (Some r) rs -> r_novermin r = []) ->
  process h major c file how n paths = (out, Ok s) ->
  exists out', process h major (w_parse_comments false c) file how n paths = (out', Ok s).
Proof. exact comments_same. Qed.
Print Assumptions c72_comments_taken_partial.

(** ** Cases *)
Definition tip_files (p : string) : fcontent :=
  if String.eqb p "clash.py" then FcSource src_clash_novm sample_clash_novm
  else if String.eqb p "ext.py" then FcSource src_extensions sample_extensions
  else if String.eqb p "ann.py" then FcSource src_annotated sample_annotated
  else files0 p.
Definition tip_results (c : config) (paths : list string) : list (option presult) :=
  flat_map (fun p => match snd (process_individual no_hooks 3 c p (tip_files p) EndDone) with Ok r => [r] | Err _ => [] end) paths.
Definition tip_run (c : config) (paths : list string) : option (list string * Z) :=
  match process no_hooks 3 (local_config c) tip_files all_done 1 paths with
  | (_, Ok s) => match report c false s with Ok x => Some x | Err _ => None end
  | _ => None
  end.
Definition tip_mins (c : config) (paths : list string) : option (mins * bool) :=
  match process no_hooks 3 (local_config c) tip_files all_done 1 paths with (_, Ok s) => Some (m_mins s, m_incomp s) | _ => None end.


(** argparse is in use, and there is a backport of it: with it, 2.7 and 3.2 become 2.3 and 3.1. *)
Example c72_backports_case :
  let c := cfg0 in let rs := tip_results c ["a.py"; "n.py"] in let c' := w_backports (add_all ["argparse"] (c_backports c)) c in
  analysed no_hooks 3 (local_config c) tip_files all_done ["a.py"; "n.py"] rs /\ toured rs /\ targets_given c /\
  to_suggest c rs ["argparse"] /\ (forall b x, backport_used rs b -> ~ versioned b x) /\
  tip_mins c ["a.py"; "n.py"] = Some ((Some (2, 7), Some (3, 2)), false) /\
  tip_mins c' ["a.py"; "n.py"] = Some ((Some (2, 3), Some (3, 1)), false) /\
  tip_run c ["a.py"; "n.py"] = Some (["Tips:"; backports_tip ["argparse"]; "(disable using: --no-tips)"; ""; "Minimum required versions: 2.7, 3.2"], 0) /\
  tip_run c' ["a.py"; "n.py"] = Some (["Minimum required versions: 2.3, 3.1"], 0) /\
  Forall known_backport ["argparse"].
Proof.
  cbv zeta. split; [analyse|]. split.
  { intros r I. vm_compute in I. destruct I as [I|[I|[]]]; injection I as <-; discriminate. }
  split; [intros H; vm_compute in H; discriminate H|].
  assert (U : forall b, backport_used (tip_results cfg0 ["a.py"; "n.py"]) b <-> b = "argparse").
  { let v := eval vm_compute in (tip_results cfg0 ["a.py"; "n.py"]) in replace (tip_results cfg0 ["a.py"; "n.py"]) with v by (vm_compute; reflexivity).
    intros b. split.
    - intros (r & m & [[I|[I|[]]] M] & B); injection I as <-; cbn in B; intuition.
    - intros ->. eexists _, _. split; [split; [left; reflexivity|reflexivity]|]. left. reflexivity. }
  split.
  { split; [repeat constructor|]. intros b. rewrite U. split; [|intros [-> _]; left; reflexivity].
    intros [<-|[]]. split; [reflexivity|]. intros (n & [] & _). }
  split.
  { intros b x I V. apply U in I. subst b. assert (E := proj1 (version_filter_spec _) _ V). vm_compute in E. subst x.
    destruct V as (_ & _ & a & r & E & _). discriminate E. }
  repeat (split; [vm_compute; reflexivity|]). constructor; [vm_compute; tauto|constructor].
Qed.

(** A tip on annotations is worth trying: the annotation asks for 3.9. *)
Example c72_annotations_case :
  let rs := tip_results cfg0 ["ann.py"] in
  analysed no_hooks 3 (local_config cfg0) tip_files all_done ["ann.py"] rs /\ may_annotate rs /\ ~ comment_used rs /\
  tip_run cfg0 ["ann.py"] = Some (["Tips:"; annotations_tip; comments_tip; "(disable using: --no-tips)"; "";
    "Minimum required versions: 3.6"; "Incompatible versions:     2"], 0) /\
  tip_run (w_eval_annotations true cfg0) ["ann.py"] = Some (["Tips:"; comments_tip; "(disable using: --no-tips)"; "";
    "Minimum required versions: 3.9"; "Incompatible versions:     2"], 0) /\
  tip_run (w_parse_comments false cfg0) ["ann.py"] = Some (["Tips:"; annotations_tip; "(disable using: --no-tips)"; "";
    "Minimum required versions: 3.6"; "Incompatible versions:     2"], 0) /\
  read_well (tip_files "ann.py") /\ (forall r, In (Some r) rs -> r_novermin r = []).
Proof.
  cbv zeta. split; [analyse|].
  let v := eval vm_compute in (tip_results cfg0 ["ann.py"]) in replace (tip_results cfg0 ["ann.py"]) with v by (vm_compute; reflexivity).
  split; [eexists _, _; split; [split; [left; reflexivity|reflexivity]|reflexivity]|].
  split; [intros (r & m & [[I|[]] M] & B); injection I as <-; apply B; reflexivity|].
  repeat (split; [vm_compute; reflexivity|]).
  split; [intros source node x H; discriminate H|]. intros r [I|[]]. injection I as <-. reflexivity.
Qed.

(** Options of tips before the paths. *)
Definition tip_parse (args : list string) : option (list string * bool * bool) :=
  match parse 4 (fun _ => true) (fun _ => None) "/w" (fun _ => CfgUnreadable) (Ok None) args (default_config 4) with
  | Ok (c, OPaths ["a.py"] _ _) => Some (c_backports c, c_eval_annotations c, c_parse_comments c)
  | _ => None
  end.
Example c72_options_case :
  tip_parse ["-t=3.4-"; "a.py"] = Some ([], false, true) /\
  tip_parse ["-t=3.4-"; "--backport"; "argparse"; "--backport"; "enum"; "a.py"] = Some (["argparse"; "enum"], false, true) /\
  tip_parse ["-t=3.4-"; "--eval-annotations"; "a.py"] = Some ([], true, true) /\
  tip_parse ["-t=3.4-"; "--no-parse-comments"; "a.py"] = Some ([], false, false).
Proof. repeat (split; [vm_compute; reflexivity|]). vm_compute. reflexivity. Qed.

(** It is said that no line is left out by a comment when a file with contradictory findings has such a line. *)
Theorem c72_comments_refuted : exists file paths lines code rs r,
  analysed no_hooks 3 (local_config cfg0) file all_done paths rs /\ In (Some r) rs /\ r_novermin r <> [] /\
  exists out s, process no_hooks 3 (local_config cfg0) file all_done 1 paths = (out, Ok s) /\ report cfg0 false s = Ok (lines, code) /\ In comments_tip lines.
Proof.
  exists tip_files, ["clash.py"]. eexists _, _, (tip_results cfg0 ["clash.py"]), _. split; [analyse|].
  split; [vm_compute; left; reflexivity|]. split; [discriminate|]. eexists _, _. split; [vm_compute; reflexivity|]. split; [vm_compute; reflexivity|].
  right. right. left. reflexivity.
Qed.
Print Assumptions c72_comments_refuted.

(** Taking the tip on typing_extensions makes the verdict stricter. *)
Theorem c72_extensions_refuted : exists file paths rs ns s s' out out',
  let c := cfg0 in let c' := w_backports (add_all ns (c_backports c)) c in
  analysed no_hooks 3 (local_config c) file all_done paths rs /\ to_suggest c rs ns /\
  process no_hooks 3 (local_config c) file all_done 1 paths = (out, Ok s) /\ m_incomp s = false /\
  process no_hooks 3 (local_config c') file all_done 1 paths = (out', Ok s') /\ ~ mins_le (m_mins s') (m_mins s).
Proof.
  exists tip_files, ["ext.py"], (tip_results cfg0 ["ext.py"]), ["typing_extensions"]. eexists _, _, _, _. cbv zeta. split; [analyse|].
  split.
  { let v := eval vm_compute in (tip_results cfg0 ["ext.py"]) in replace (tip_results cfg0 ["ext.py"]) with v by (vm_compute; reflexivity).
    split; [repeat constructor|]. intros b. split.
    - intros [<-|[]]. split; [|intros (n & [] & _)]. eexists _, _. split; [split; [left; reflexivity|reflexivity]|]. left. reflexivity.
    - intros [(r & m & [[I|[]] M] & B) _]; injection I as <-; cbn in B; exact B. }
  split; [vm_compute; reflexivity|]. split; [vm_compute; reflexivity|]. split; [vm_compute; reflexivity|]. vm_compute. intros H. intuition congruence.
Qed.
Print Assumptions c72_extensions_refuted.
