(** C51-C58: from the results of files to the summary, the report and the exit code. *)
From Verif Require Import PyBase PyLemmas Utility RulesData Rules Config Formats Paths AstKinds Ast State Visitor
  MinVersions Parser Detection Arguments Pool Processor Main Spec_Base Spec_Utility Spec_Rules Spec_MinVersions
  Proof_MinVersions Proof_Pool Spec_Main Proof_Main Proof_Report Prop_Detection Samples.

(** ** Worlds for the concrete cases *)
Definition no_hooks : hooks := mkHooks (fun _ _ => Ok false) (fun _ => "").
Definition all_done : string -> ending := fun _ => EndDone.
Definition cfg0 : config := default_config 4.
(** a.py imports argparse, b.py uses :=, two.py and three.py are for one major only, n.py has a novm
    comment, bin is no Python code, gone cannot be read. *)
Definition files0 (p : string) : fcontent :=
  if String.eqb p "a.py" then FcSource src_argparse sample_argparse
  else if String.eqb p "b.py" then FcSource src_walrus sample_walrus
  else if String.eqb p "two.py" then FcSource src_py2only sample_py2only
  else if String.eqb p "three.py" then FcSource src_py3only sample_py3only
  else if String.eqb p "n.py" then FcSource src_novm sample_novm
  else if String.eqb p "s.py" then FcSource src_strftime sample_strftime
  else if String.eqb p "bin" then FcErr PeValue
  else FcErr (PeOther "[Errno 13] Permission denied").
Definition world0 (how : string -> ending) : world :=
  mkWorld 4 3 "/w" (mkFs (fun _ => None) (fun _ => None) (fun _ => None) (fun _ => None)) (fun _ => true)
          (fun _ _ => false) (fun _ => None) (fun _ => CfgUnreadable) (Ok None) files0 how no_hooks.

(** ** C51 *)
Theorem c51_summary : forall h major c file how n paths rs, analysed h major c file how paths rs -> toured rs ->
  1 <= n -> combinable c rs ->
  exists out s, process h major c file how n paths = (out, Ok s) /\
    is_join_of (verdict_in rs) (m_mins s) /\
    (m_incomp s = true <-> exists r, In (Some r) rs /\ r_mins r = MNone) /\
    summarises rs s /\ increasing (m_unique s) /\ NoDup (m_bps s).
Proof. exact process_summary. Qed.
Print Assumptions c51_summary.

(** When files clash, those that do not fit what was combined before are left out, and it is said so. *)
Theorem c51_clash : forall h major c file how n paths rs, analysed h major c file how paths rs -> toured rs ->
  1 <= n -> c_ignore_incomp c = false ->
  exists out s, process h major c file how n paths = (out, Ok s) /\
    (exists l, verdicts rs l /\ greedy zero_mins l (m_mins s)) /\
    (m_incomp s = true <-> (exists r, In (Some r) rs /\ r_mins r = MNone) \/
                           (exists a b, verdict_in rs a /\ verdict_in rs b /\ clashing a b)) /\
    summarises rs s /\ increasing (m_unique s) /\ NoDup (m_bps s).
Proof. exact process_clash. Qed.
Print Assumptions c51_clash.

Theorem c51_not_python : forall h major c file how n paths p rest,
  snd (process_individual h major c p (file p) (how p)) = Ok None ->
  process h major c file how n (paths ++ p :: rest) = process h major c file how n (paths ++ rest).
Proof. exact not_python. Qed.
Print Assumptions c51_not_python.

Definition results (c : config) (paths : list string) : list (option presult) :=
  flat_map (fun p => match snd (process_individual no_hooks 3 c p (files0 p) EndDone) with Ok r => [r] | Err _ => [] end) paths.

Ltac analyse :=
  match goal with |- analysed ?h ?m ?c ?f ?w ?ps ?r =>
    let v := eval vm_compute in r in
    replace r with v by (vm_compute; reflexivity); repeat (constructor; [vm_compute; reflexivity|]); constructor
  end.

Example c51_case : let paths := ["a.py"; "b.py"; "bin"; "n.py"] in
  analysed no_hooks 3 cfg0 files0 all_done paths (results cfg0 paths) /\ toured (results cfg0 paths) /\
  exists s, process no_hooks 3 cfg0 files0 all_done 4 paths = ("", Ok s) /\
    m_mins s = (None, Some (3, 8)) /\ m_unique s = [(2, 7); (3, 2); (3, 8)] /\ m_bps s = ["argparse"] /\ m_novm s = true.
Proof.
  cbv zeta. split; [|split].
  - analyse.
  - intros r I. vm_compute in I. repeat (destruct I as [I|I]; [try discriminate; injection I as <-; discriminate|]). destruct I.
  - eexists. split; [vm_compute; reflexivity|]. repeat split.
Qed.
Example c51_clash_case : exists out s,
  process no_hooks 3 cfg0 files0 all_done 4 ["two.py"; "three.py"; "a.py"] = (out, Ok s) /\
  m_mins s = (Some (2, 7), None) /\ m_incomp s = true.
Proof. do 2 eexists. split; [vm_compute; reflexivity|]. repeat split. Qed.

(** ** C52 *)
(** Any number of processes. *)
Theorem c52_process_count : forall h major c file how n n' paths rs, analysed h major c file how paths rs ->
  1 <= n -> 1 <= n' -> process h major c file how n paths = process h major c file how n' paths.
Proof. exact process_count. Qed.
Print Assumptions c52_process_count.

(** Any pool execution that ends gives the aggregate of one process taking the results one by one, and
    the same output unless a worker prints itself. *)
Theorem c52_completion_order : forall c work n evs r, schedule n evs ->
  pool_loop c work n evs imap_init 0 agg_init = Some r ->
  let one := agg_loop c (map (fun i => snd (work i)) (List.seq 0 n)) agg_init in
  snd r = snd one /\ same_result (summary_of (fst r)) (summary_of (fst one)) /\
  m_incomp (summary_of (fst r)) = m_incomp (summary_of (fst one)) /\
  ((forall i, fst (work i) = []) -> r = one).
Proof.
  intros c work n evs r S H one. destruct (pool_loop_result c work n evs r S H) as [E K].
  fold one in E, K. unfold forget_res, forget in E. destruct r as [a x], one as [b y]. cbn [fst snd] in *.
  injection E as E1 E2 E3 E4 E5 E6 E7. split; auto. split; [|split; auto].
  constructor; cbn [summary_of m_mins m_unique m_bps m_novm m_maybe]; try congruence. intros z. rewrite E4. tauto.
Qed.
Print Assumptions c52_completion_order.

(** And one that lets every worker finish does end. *)
Theorem c52_ends : forall c work n evs, schedule n evs -> (forall i, (i < n)%nat -> In i (completions evs)) ->
  pool_loop c work n (evs ++ repeat Next n) imap_init 0 agg_init <> None.
Proof.
  intros c work n evs [ND B] F. apply (pool_loop_ends c work n evs imap_init [] [] agg_init); auto.
  - apply init_inv.
  - simpl. lia.
  - simpl. lia.
Qed.
Print Assumptions c52_ends.

(** False of the code for an exception of a too deep file: one process drops all results, more keep
    those before it. *)
Theorem c52_process_count_refuted : exists how s s', 
  snd (process no_hooks 3 cfg0 files0 how 1 ["a.py"; "b.py"]) = Ok s /\
  snd (process no_hooks 3 cfg0 files0 how 2 ["a.py"; "b.py"]) = Ok s' /\ m_mins s <> m_mins s'.
Proof.
  exists (fun p => if String.eqb p "b.py" then EndRecursion else EndDone). do 2 eexists.
  split; [vm_compute; reflexivity|]. split; [vm_compute; reflexivity|]. discriminate.
Qed.
Print Assumptions c52_process_count_refuted.

(** False of the code for the lines workers print: they come as workers finish. *)
Definition bad_syntax (f : string) : parsed := PErr (PeSyntax (mkSyn (Some "print 1") "Missing parentheses in call to 'print'" f "1" "0")).
Definition work0 (i : nat) : list string * res (option presult) :=
  process_individual no_hooks 3 (w_verbose 2 cfg0) (nat_str i) (FcSource "print 1" (bad_syntax (nat_str i))) EndDone.
Theorem c52_worker_lines_refuted : exists c work n evs evs' r r', schedule n evs /\ schedule n evs' /\
  pool_loop c work n evs imap_init 0 agg_init = Some r /\ pool_loop c work n evs' imap_init 0 agg_init = Some r' /\
  a_out (fst r) <> a_out (fst r').
Proof.
  exists (w_verbose 2 cfg0), work0, 2%nat, [Complete 0; Complete 1; Next; Next], [Complete 1; Complete 0; Next; Next].
  do 2 eexists. split; [|split; [|split; [vm_compute; reflexivity|split; [vm_compute; reflexivity|discriminate]]]].
  - split; [repeat constructor; simpl; intuition lia | simpl; intuition lia].
  - split; [repeat constructor; simpl; intuition lia | simpl; intuition lia].
Qed.
Print Assumptions c52_worker_lines_refuted.

Definition work1 (i : nat) : list string * res (option presult) :=
  let p := nth i ["a.py"; "b.py"; "bin"] "" in process_individual no_hooks 3 cfg0 p (files0 p) EndDone.
Example c52_case : schedule 3 [Next; Complete 2; Complete 0; Next; Complete 1; Next; Next] /\
  (forall i, fst (work1 i) = []) /\
  exists r, pool_loop cfg0 work1 3 [Next; Complete 2; Complete 0; Next; Complete 1; Next; Next] imap_init 0 agg_init = Some r /\
    snd r = None /\ m_mins (summary_of (fst r)) = (None, Some (3, 8)).
Proof.
  split; [split; [repeat constructor; simpl; intuition lia | simpl; intuition lia]|]. split.
  - intros [|[|[|[|i]]]]; reflexivity.
  - eexists. split; [vm_compute; reflexivity|]. split; reflexivity.
Qed.

(** ** C53 *)
(** Any order, any repetition, when every file's verdict can be counted. *)
Theorem c53_order_partial : forall h major c file how n n' paths paths' rs, analysed h major c file how paths rs -> toured rs ->
  1 <= n -> 1 <= n' -> combinable c rs -> (forall p, In p paths <-> In p paths') ->
  exists out s out' s', process h major c file how n paths = (out, Ok s) /\ process h major c file how n' paths' = (out', Ok s') /\
    same_result s s' /\ m_incomp s = m_incomp s'.
Proof. exact process_order. Qed.
Print Assumptions c53_order_partial.

(** Otherwise all but the minimum versions is still the same, and the run says that files clash. *)
Theorem c53_order_hints : forall h major c file how n n' paths paths' rs, analysed h major c file how paths rs -> toured rs ->
  1 <= n -> 1 <= n' -> c_ignore_incomp c = false -> (forall p, In p paths <-> In p paths') ->
  exists out s out' s', process h major c file how n paths = (out, Ok s) /\ process h major c file how n' paths' = (out', Ok s') /\
    m_incomp s = m_incomp s' /\ m_unique s = m_unique s' /\ m_novm s = m_novm s' /\ m_maybe s = m_maybe s' /\
    (forall b, In b (m_bps s) <-> In b (m_bps s')).
Proof. exact process_order_incomp. Qed.
Print Assumptions c53_order_hints.

Theorem c53_order_refuted : exists paths paths' s s', (forall p, In p paths <-> In p paths') /\
  snd (process no_hooks 3 cfg0 files0 all_done 4 paths) = Ok s /\ snd (process no_hooks 3 cfg0 files0 all_done 4 paths') = Ok s' /\
  m_mins s <> m_mins s'.
Proof.
  exists ["two.py"; "three.py"], ["three.py"; "two.py"]. do 2 eexists. split; [simpl; tauto|].
  split; [vm_compute; reflexivity|]. split; [vm_compute; reflexivity|]. discriminate.
Qed.
Print Assumptions c53_order_refuted.

(** Within a run the order given on the command line never matters: files are sorted first. *)
Theorem c53_command_line : forall w c versions fuel fuel' paths paths' l l',
  (forall p, In p paths <-> In p paths') ->
  found_files w c fuel paths = Some (Ok l) -> found_files w c fuel' paths' = Some (Ok l') ->
  run_files w c versions l = run_files w c versions l'.
Proof.
  intros w c versions fuel fuel' paths paths' l l' P H H'.
  rewrite (c29_order_independent w w c fuel fuel' paths paths' l l'); auto.
  repeat split; auto. intros p. destruct (fs_listdir (w_fs w) p); tauto.
Qed.
Print Assumptions c53_command_line.

Example c53_case : let rs := results cfg0 ["a.py"; "n.py"; "b.py"] in
  analysed no_hooks 3 cfg0 files0 all_done ["a.py"; "n.py"; "b.py"] rs /\ toured rs /\ combinable cfg0 rs.
Proof.
  cbv zeta. split; [analyse|]. split.
  - intros r I. vm_compute in I. repeat (destruct I as [I|I]; [try discriminate; injection I as <-; discriminate|]). destruct I.
  - right. intros a b (ra & Ia & Ma) (rb & Ib & Mb). vm_compute in Ia, Ib.
    repeat (destruct Ia as [Ia|Ia]; [injection Ia as <-; injection Ma as <-|]); try destruct Ia;
    repeat (destruct Ib as [Ib|Ib]; [injection Ib as <-; injection Mb as <-|]); try destruct Ib;
    intros [[[A1 A2] [B1 B2]]|[[A1 A2] [B1 B2]]]; simpl in *; congruence.
Qed.

(** ** C54 *)
(** The exit code of a run that found files. *)
Theorem c54_exit_code : forall w c versions files rs,
  let lc := local_config c in
  analysed (w_hooks w) (w_major w) lc (w_file w) (w_ending w) files rs -> toured rs -> 1 <= c_processes lc ->
  w_major w <> 2 -> files <> [] ->
  one_per_major (fun t : target => fst (snd t)) (c_targets c) -> (forall t, In t (c_targets c) -> in_range (snd t)) ->
  exists s code out, process (w_hooks w) (w_major w) lc (w_file w) (w_ending w) (c_processes lc) files = (out, Ok s) /\
    snd (run_files w c versions files) = Ok code /\ (code = 0 \/ code = 1) /\ (code = 0 <-> success c (m_mins s)).
Proof.
  intros w c versions files rs lc A T P M N O R.
  destruct (process_ok _ _ _ _ _ _ _ _ A T P) as (a & E & _).
  destruct (process_report_ok _ _ _ _ _ _ _ _ _ _ A T P M E) as [(W2 & W3 & _) U].
  exists (summary_of a). do 2 eexists. split; [exact E|]. split; [eapply run_code; eauto|].
  rewrite <- (targets_failed_iff c (m_mins (summary_of a)) W2 W3 O R).
  destruct (targets_failed c _); split; auto; split; intros K; try discriminate; auto.
Qed.
Print Assumptions c54_exit_code.

(** Nothing found, and an aborted run. *)
Theorem c54_no_files : forall w c versions, snd (run_files w c versions []) = Ok 1.
Proof. reflexivity. Qed.
Print Assumptions c54_no_files.

Theorem c54_interrupted : forall w c versions files out,
  process (w_hooks w) (w_major w) (local_config c) (w_file w) (w_ending w) (c_processes (local_config c)) files = (out, Err KeyboardInterrupt) ->
  files <> [] -> snd (run_files w c versions files) = Ok 1.
Proof. intros w c versions files out P N. unfold run_files. destruct files; [congruence|]. rewrite P. reflexivity. Qed.
Print Assumptions c54_interrupted.

(** For a whole run: exit code 0 exactly when files were found and it succeeds. *)
Theorem c54_main : forall w fuel args c paths versions printed files rs,
  parse (w_cpus w) (w_re_ok w) (w_excl_file w) (w_cwd w) (w_cfg_file w) (w_detected w) args (default_config (w_cpus w))
    = Ok (c, OPaths paths versions printed) ->
  found_files w c fuel paths = Some (Ok files) ->
  let lc := local_config c in
  analysed (w_hooks w) (w_major w) lc (w_file w) (w_ending w) files rs -> toured rs -> 1 <= c_processes lc -> w_major w <> 2 ->
  one_per_major (fun t : target => fst (snd t)) (c_targets c) -> (forall t, In t (c_targets c) -> in_range (snd t)) ->
  exists out code, main w fuel args = Some (out, Ok code) /\ (code = 0 \/ code = 1) /\
    (code = 0 <-> files <> [] /\ exists s, snd (process (w_hooks w) (w_major w) lc (w_file w) (w_ending w) (c_processes lc) files) = Ok s /\
                                           success c (m_mins s)).
Proof.
  intros w fuel args c paths versions printed files rs P F lc A T N M O R. unfold main. rewrite P, F.
  destruct (run_files w c versions files) as [o r] eqn:E. destruct files as [|f fs].
  - assert (K := c54_no_files w c versions). rewrite E in K. cbn [snd] in K. subst r.
    do 2 eexists. split; [reflexivity|]. split; auto. split; [discriminate | intros [K _]; congruence].
  - destruct (c54_exit_code w c versions (f :: fs) rs A T N M) as (s & code & out & Pr & Rn & C & I); auto; [discriminate|].
    rewrite E in Rn. cbn [snd] in Rn. subst r. do 2 eexists. split; [reflexivity|]. split; auto. fold lc in Pr. rewrite Pr. cbn [snd].
    rewrite I. split.
    + intros K. split; [discriminate|]. exists s. auto.
    + intros [_ (s' & K & S)]. injection K as <-. auto.
Qed.
Print Assumptions c54_main.

(** False of the code for two targets of one major: only the last one is looked at (C07). *)
Definition two_targets : config := w_targets [(true, (3, 4)); (true, (3, 8))] cfg0.
Theorem c54_same_major_refuted : exists w c files s, c_targets c = [(true, (3, 4)); (true, (3, 8))] /\
  snd (process (w_hooks w) (w_major w) c (w_file w) (w_ending w) (c_processes c) files) = Ok s /\
  snd (run_files w c false files) = Ok 0 /\ ~ success c (m_mins s).
Proof.
  exists (world0 all_done), two_targets, ["b.py"]. eexists. split; [reflexivity|]. split; [vm_compute; reflexivity|].
  split; [vm_compute; reflexivity|]. intros [K|[K|[K _]]]; try discriminate.
  destruct (K (true, (3, 4))) as (v & [E|E] & O); [left; auto | discriminate E |]. injection E as <-. destruct O as [_ O]. discriminate.
Qed.
Print Assumptions c54_same_major_refuted.

Definition ok_targets : config := w_targets [(false, (3, 9))] cfg0.
Example c54_case : let rs := results ok_targets ["a.py"; "b.py"] in
  analysed no_hooks 3 (local_config ok_targets) files0 all_done ["a.py"; "b.py"] rs /\ toured rs /\
  snd (run_files (world0 all_done) ok_targets false ["a.py"; "b.py"]) = Ok 0 /\
  snd (run_files (world0 all_done) (w_targets [(true, (3, 9))] cfg0) false ["a.py"; "b.py"]) = Ok 1 /\
  snd (run_files (world0 all_done) (w_targets [(false, (2, 7)); (false, (3, 9))] cfg0) false ["a.py"; "b.py"]) = Ok 1.
Proof.
  cbv zeta. split; [analyse|]. split.
  - intros r I. vm_compute in I. repeat (destruct I as [I|I]; [try discriminate; injection I as <-; discriminate|]). destruct I.
  - vm_compute. auto.
Qed.

(** ** C55 *)
Theorem c55_minimum : forall c versions s lines code,
  report_ok (m_mins s) -> ~ In (0, 0) (m_unique s) -> c_format c = FDefault -> c_quiet c = false ->
  report c versions s = Ok (lines, code) ->
  (forall t, In ("Minimum required versions: " +++ t) lines <-> shows_minimum (m_mins s) t) /\
  (forall t, In ("Note: Not enough evidence to conclude it won't work with Python " +++ t +++ ".") lines <->
             shows_unknown (m_mins s) t) /\
  (c_ignore_incomp c = false \/ m_mins s = (None, None) -> forall t, In ("Incompatible versions:     " +++ t) lines <-> shows_incompatible (m_mins s) t) /\
  (In "Note: Some files had incompatible versions so the results might not be correct!" lines <->
   m_incomp s = true /\ c_ignore_incomp c = false).
Proof.
  intros c versions s lines code W U F Q R. split; [|split; [|split]].
  - eapply minimum_line; eauto.
  - eapply note_line; eauto.
  - eapply incompatible_line; eauto.
  - eapply left_out_line; eauto.
Qed.
Print Assumptions c55_minimum.

(** Every summary of a run under Python 3 meets the hypotheses. *)
Theorem c55_applies : forall h major c file how n paths rs out s, analysed h major c file how paths rs -> toured rs -> 1 <= n ->
  major <> 2 -> process h major c file how n paths = (out, Ok s) -> report_ok (m_mins s) /\ ~ In (0, 0) (m_unique s).
Proof. exact process_report_ok. Qed.
Print Assumptions c55_applies.

(** False of the code: the note that there is no known reason is never printed, whatever was found. *)
Theorem c55_no_known_reason_refuted : forall c versions s lines code, ~ In (0, 0) (m_unique s) -> c_format c = FDefault ->
  report c versions s = Ok (lines, code) -> ~ In "No known reason found that it will not work with 2+ and 3+." lines.
Proof. exact no_known_reason. Qed.
Print Assumptions c55_no_known_reason_refuted.

(** And under a Python 2 interpreter with pessimistic syntax, Python 3 is called 2. *)
Theorem c55_python2_refuted : exists c file s out lines code,
  process no_hooks 2 c file all_done 1 ["a.py"] = (out, Ok s) /\ m_mins s = (None, Some (0, 0)) /\
  report c false s = Ok (lines, code) /\ In "Minimum required versions: ~2" lines.
Proof.
  exists (w_pessimistic true cfg0), (fun _ => FcSource "(" (PErr (PeSyntax (mkSyn (Some "(") "'(' was never closed" "a.py" "1" "1")))).
  do 4 eexists. split; [vm_compute; reflexivity|]. split; [reflexivity|]. split; [vm_compute; reflexivity|]. simpl. tauto.
Qed.
Print Assumptions c55_python2_refuted.

Example c55_case : exists s lines code, snd (process no_hooks 3 cfg0 files0 all_done 4 ["a.py"; "gone"]) = Ok s /\
  m_mins s = (Some (2, 7), Some (3, 2)) /\ report cfg0 true s = Ok (lines, code) /\
  In "Minimum required versions: 2.7, 3.2" lines /\ In "Version range:             2.7, 3.2" lines.
Proof. do 3 eexists. split; [vm_compute; reflexivity|]. split; [reflexivity|]. split; [vm_compute; reflexivity|]. simpl. tauto. Qed.

(** ** C56 *)
(** Quiet runs print nothing in the parent, nor in any worker. *)
Theorem c56_quiet : forall w c versions files, c_quiet c = true -> c_format c = FDefault -> c_only_show_violations c = false ->
  fst (run_files w c versions files) = "" /\
  forall p, fst (process_individual (w_hooks w) (w_major w) (local_config c) p (w_file w p) (w_ending w p)) = [].
Proof.
  intros w c versions files Q F V. assert (L : local_config c = c) by (unfold local_config; rewrite V; reflexivity).
  split; [|rewrite L; apply worker_quiet; auto].
  rewrite run_quiet_gen by auto. destruct files; auto. rewrite L. apply process_quiet; auto.
Qed.
Print Assumptions c56_quiet.

(** Nor does the option parsing. *)
Theorem c56_parse : forall cpus re_ok ef cwd cfg det args c c' ps v pr,
  parse cpus re_ok ef cwd cfg det args c = Ok (c', OPaths ps v pr) -> c_quiet c' = true -> pr = [].
Proof.
  intros cpus re_ok ef cwd cfg det args c c' ps v pr H Q.
  assert (Fi : forall args note s, finish args note s = (c', OPaths ps v pr) -> pr = []).
  { intros args0 note s. unfold finish. cbv zeta. destruct (c_only_show_violations _ && _); [discriminate|].
    destruct (c_quiet _ && _ && _); [discriminate|]. intros K. injection K as -> _ _ <-.
    destruct note; auto. destruct (fmt_eqb _ _); auto. unfold nprint. rewrite Q. auto. }
  unfold parse in H. destruct args as [|x args]; [discriminate|]. destruct det as [det|]; [|discriminate].
  destruct (preparse _ _ _ _) as [| | |nc ac]; try discriminate. cbv zeta in H.
  repeat match type of H with
  | Ok (finish _ _ _) = _ => injection H as H; eapply Fi; exact H
  | context [match ?x with _ => _ end] => destruct x; try discriminate
  end.
Qed.
Print Assumptions c56_parse.

(** In violations mode only the per-file output is left, and that of files without violations is not
    shown. *)
Theorem c56_violations : forall w c versions files, c_quiet c = true -> c_format c = FDefault -> files <> [] ->
  fst (run_files w c versions files) =
  fst (process (w_hooks w) (w_major w) (local_config c) (w_file w) (w_ending w) (c_processes (local_config c)) files).
Proof. intros w c versions files Q F N. rewrite run_quiet_gen by auto. destruct files; congruence. Qed.
Print Assumptions c56_violations.

Theorem c56_no_violations : forall h major c file how n paths rs out s, analysed h major c file how paths rs -> 1 <= n ->
  c_only_show_violations c = true -> (forall r, In (Some r) rs -> r_text r = "") ->
  process h major c file how n paths = (out, Ok s) -> m_incomp s = false -> toured rs -> out = "".
Proof. exact process_clean. Qed.
Print Assumptions c56_no_violations.

Definition quiet_violations : config := w_only_show_violations true (w_targets [(true, (3, 4))] (w_verbose 2 (w_quiet true cfg0))).
Example c56_case : fst (run_files (world0 all_done) (w_quiet true cfg0) true ["a.py"; "two.py"; "three.py"]) = "" /\
  fst (run_files (world0 all_done) cfg0 true ["a.py"]) <> "" /\
  fst (run_files (world0 all_done) quiet_violations true ["a.py"]) = "" /\
  fst (run_files (world0 all_done) quiet_violations true ["b.py"]) <> "".
Proof. vm_compute. repeat split; discriminate. Qed.

(** ** C57 *)
Theorem c57_end_to_end : forall h major c file how n paths rs out s, analysed h major c file how paths rs -> toured rs -> 1 <= n ->
  process h major c file how n paths = (out, Ok s) -> m_incomp s = false ->
  is_join_of (fun m => exists p, In p paths /\ file_rule h major c file p m) (m_mins s).
Proof. exact end_to_end. Qed.
Print Assumptions c57_end_to_end.

Example c57_case : exists s, process no_hooks 3 cfg0 files0 all_done 4 ["a.py"; "b.py"] = ("", Ok s) /\ m_incomp s = false /\
  m_mins s = (None, Some (3, 8)) /\ file_rule no_hooks 3 cfg0 files0 "b.py" (None, Some (3, 8)).
Proof.
  eexists. split; [vm_compute; reflexivity|]. split; [reflexivity|]. split; [reflexivity|].
  eapply fr_tree; [reflexivity | reflexivity | reflexivity | vm_compute; reflexivity |].
  eapply trig_feature; [vm_compute; left; reflexivity|]. constructor.
Qed.

(** ** C58 *)
(** A file that cannot be read or decoded, or is interrupted before its tour, changes nothing, whatever
    the other files do. *)
Theorem c58_failing_partial : forall h major c file how n l p r x, fails major c file p x -> how p <> EndAbort ->
  match snd (process h major c file how n (l ++ p :: r)), snd (process h major c file how n (l ++ r)) with
  | Ok s, Ok s' => same_result s s' /\ (x <> PeInterrupt -> m_incomp s = m_incomp s')
  | Err e, Err e' => e = e'
  | _, _ => False
  end.
Proof. exact process_failing. Qed.
Print Assumptions c58_failing_partial.

(** False of the code for an interrupted tour: the run ends in an AssertionError. *)
Theorem c58_interrupted_tour_refuted : exists how s,
  snd (process no_hooks 3 cfg0 files0 how 4 ["a.py"]) = Ok s /\
  snd (process no_hooks 3 cfg0 files0 how 4 ["a.py"; "b.py"]) = Err AssertionError.
Proof.
  exists (fun p => if String.eqb p "b.py" then EndInterrupt else EndDone). eexists.
  split; vm_compute; reflexivity.
Qed.
Print Assumptions c58_interrupted_tour_refuted.

(** And for an exception of the visitor, that ends the run. *)
Theorem c58_visitor_exception_refuted : exists s,
  snd (process no_hooks 3 cfg0 files0 all_done 4 ["a.py"]) = Ok s /\
  snd (process no_hooks 3 cfg0 files0 all_done 4 ["a.py"; "s.py"]) = Err TypeError.
Proof. eexists. split; vm_compute; reflexivity. Qed.
Print Assumptions c58_visitor_exception_refuted.

(** And for a too deep file, after which no more files count. *)
Theorem c58_too_deep_refuted : exists how s s',
  snd (process no_hooks 3 cfg0 files0 how 4 ["b.py"]) = Ok s /\
  snd (process no_hooks 3 cfg0 files0 how 4 ["a.py"; "b.py"]) = Ok s' /\ m_mins s = (None, Some (3, 8)) /\ m_mins s' = zero_mins.
Proof.
  exists (fun p => if String.eqb p "a.py" then EndRecursion else EndDone). do 2 eexists.
  split; [vm_compute; reflexivity|]. split; [vm_compute; reflexivity|]. split; reflexivity.
Qed.
Print Assumptions c58_too_deep_refuted.

Example c58_case : fails 3 cfg0 files0 "gone" (PeOther "[Errno 13] Permission denied") /\ all_done "gone" <> EndAbort /\
  exists s s', snd (process no_hooks 3 cfg0 files0 all_done 4 (["a.py"] ++ "gone" :: ["b.py"])) = Ok s /\
    snd (process no_hooks 3 cfg0 files0 all_done 4 (["a.py"] ++ ["b.py"])) = Ok s' /\ m_mins s = (None, Some (3, 8)) /\ m_mins s' = m_mins s.
Proof.
  split; [apply fails_open; reflexivity|]. split; [discriminate|]. do 2 eexists.
  split; [vm_compute; reflexivity|]. split; [vm_compute; reflexivity|]. split; reflexivity.
Qed.
