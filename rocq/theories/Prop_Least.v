(** C84: exit codes for several targets, and the report. *)
From Verif Require Import PyBase PyLemmas Utility RulesData Rules Config Formats Paths AstKinds Ast State Visitor
  MinVersions Parser Detection Arguments Pool Processor Main UsageData Usage Messages Spec_Base Spec_Utility Spec_Rules Spec_MinVersions Spec_Main Spec_Valid Spec_Targets Spec_Messages Spec_Tips Spec_Whole Spec_Same Spec_Least
  Proof_Utility Proof_Main Proof_Report Proof_Valid Proof_Targets Proof_Verdict Proof_Least Samples Samples_Tips Prop_Visitor Prop_Main Prop_Tips Prop_Whole Prop_Failing.
From Coq Require Import Lia.

(** There is one verdict that decides how the runs for all targets end; a run without targets prints it. *)
Theorem c84_report : forall w prog err_text det fuel args c versions files rs,
  0 < w_cpus w -> isabs (w_cwd w) = true -> w_major w <> 2 -> w_detected w = Ok det -> asks w args fuel c versions files -> files <> [] ->
  analysed (w_hooks w) (w_major w) (local_config c) (w_file w) (w_ending w) files rs -> toured rs -> c_format c = FDefault -> c_quiet c = false ->
  exists m before lines code,
    whole_main w prog err_text fuel args = Some (before +++ print_lines lines, Ok code) /\
    (m = (None, None) \/ exists t, shows_minimum m t /\ In ("Minimum required versions: " +++ t) lines) /\
    forall args' fuel' c' versions' v, asks w args' fuel' c' versions' files -> same_question c c' -> c_only_show_violations c' = false ->
      (c_targets c' = [(false, v)] -> (succeeds w fuel' args' <-> enough m v)) /\
      (c_targets c' = [(true, v)] -> (succeeds w fuel' args' <-> required m v)).
Proof.
  intros w prog err_text det fuel args c versions files rs Cp Cw M D A N An To Fm Q.
  destruct (one_verdict w fuel args c versions files rs Cp Cw M A N An To) as (s & E & R & H).
  assert (A' := A). destruct A' as (paths & printed & P & F). rewrite D in P.
  destruct (c73_main w prog err_text fuel args det c paths versions printed files rs D Cp P Fm F N M An To)
    as (s' & front & mid & lines & code & E' & _ & _ & Wm & _ & _ & _ & Rt & _).
  rewrite E in E'. injection E' as <-. specialize (Rt Q). exists (m_mins s).
  exists (print_lines (map err_text (unread (w_excl_file w) args)) +++ print_lines front +++ mid), lines, code.
  split; [rewrite Wm, !app_assoc_s; reflexivity|]. split.
  - destruct R as (W2 & W3 & _). destruct (m_mins s) as [a b] eqn:Em.
    assert (X : (a, b) = (None, None) \/ exists t, shows_minimum (a, b) t).
    { destruct a as [a|], b as [b|]; [right; eexists; constructor; apply one_str_writes|right; eexists; constructor; apply one_str_writes|
        right; eexists; constructor; apply one_str_writes|left; reflexivity]. }
    destruct X as [X|(t & X)]; [left; exact X|right]. exists t. split; [exact X|].
    destruct Rt as (x1 & x2 & x3 & x4 & x5 & x6 & x7 & -> & _ & _ & S & _). rewrite Em in S.
    apply in_app_iff. right. apply in_app_iff. right. apply in_app_iff. left.
    destruct S as [S|l S U].
    + exfalso. apply (S ("Minimum required versions: " +++ t)). exists t. split; [reflexivity|exact X].
    + left. symmetry. apply U. exists t. split; [reflexivity|exact X].
  - intros args' fuel' c' versions' v A' S V. destruct (H args' fuel' c' versions' A' S) as [K _]. split; intros T; rewrite K, (passes_single _ _ _ T V).
    + unfold enough, target_ok. cbn [fst snd]. reflexivity.
    + unfold target_ok. cbn [fst snd]. split; [intros (r & Rr & _ & ->); exact Rr|intros Rr; exists v; auto].
Qed.
Print Assumptions c84_report.

(** What is reported for a major version is the least target of that version that a run succeeds with. *)
Theorem c84_least : forall w fuel args c versions files rs,
  0 < w_cpus w -> isabs (w_cwd w) = true -> w_major w <> 2 -> asks w args fuel c versions files -> files <> [] ->
  analysed (w_hooks w) (w_major w) (local_config c) (w_file w) (w_ending w) files rs -> toured rs ->
  exists s, snd (process (w_hooks w) (w_major w) (local_config c) (w_file w) (w_ending w) (c_processes (local_config c)) files) = Ok s /\
    forall args' fuel' c' versions' v, asks w args' fuel' c' versions' files -> same_question c c' -> c_only_show_violations c' = false ->
      c_targets c' = [(false, v)] ->
      (forall r, required (m_mins s) r -> fst r = fst v -> (succeeds w fuel' args' <-> ver_le r v)) /\
      ((forall r, required (m_mins s) r -> fst r <> fst v) -> ~ succeeds w fuel' args').
Proof.
  intros w fuel args c versions files rs Cp Cw M A N An To.
  destruct (one_verdict w fuel args c versions files rs Cp Cw M A N An To) as (s & E & R & H). exists s. split; [exact E|].
  intros args' fuel' c' versions' v A' S V T. destruct (H args' fuel' c' versions' A' S) as [K Rg]. rewrite T in Rg.
  assert (Q : succeeds w fuel' args' <-> enough (m_mins s) v).
  { rewrite K, (passes_single _ _ _ T V). unfold enough, target_ok. cbn [fst snd]. reflexivity. }
  split.
  - intros r Rq F. rewrite Q. apply own_major; auto. destruct (Rg _ (or_introl eq_refl)) as [X _]. cbn [snd] in X. unfold ver_le in X. cbn [fst snd] in X. lia.
  - intros G X. apply Q in X as (r & Rq & F & _). exact (G r Rq F).
Qed.
Print Assumptions c84_least.

(** A run that succeeds with a target succeeds with a higher one for the same major version. *)
Theorem c84_higher : forall w fuel args c versions files rs fuel' args' c' versions' v v',
  0 < w_cpus w -> isabs (w_cwd w) = true -> w_major w <> 2 -> asks w args fuel c versions files -> asks w args' fuel' c' versions' files -> files <> [] ->
  analysed (w_hooks w) (w_major w) (local_config c) (w_file w) (w_ending w) files rs -> toured rs -> same_question c c' ->
  c_targets c = [(false, v)] -> c_targets c' = [(false, v')] -> c_only_show_violations c = c_only_show_violations c' -> fst v = fst v' -> ver_le v v' ->
  succeeds w fuel args -> succeeds w fuel' args'.
Proof.
  intros w fuel args c versions files rs fuel' args' c' versions' v v' Cp Cw M A A' N An To S T T' V F L H.
  destruct (one_verdict w fuel args c versions files rs Cp Cw M A N An To) as (s & _ & _ & K).
  apply (proj1 (K _ _ _ _ A (question_refl c))) in H.
  apply (proj1 (K _ _ _ _ A' S)). unfold passes in *. rewrite T, V in H. rewrite T'. destruct H as [H|[H|H]]; [discriminate H| |right; right; exact H].
  right. left. intros t Ct. unfold target_counts in Ct. apply counts_single in Ct. subst t.
  destruct (H (false, v) (proj2 (counts_single _ _ _) eq_refl)) as (r & Rq & Fr & Lr). cbn [fst snd] in *. exists r. split; [exact Rq|].
  split; cbn [fst snd]; [congruence|]. exact (ver_le_trans _ _ _ Lr L).
Qed.
Print Assumptions c84_higher.

(** A run with a target for each major version succeeds exactly if those with one of them do. *)
Theorem c84_each : forall w fuel args c versions files rs fuel1 args1 c1 versions1 fuel2 args2 c2 versions2 t1 t2,
  0 < w_cpus w -> isabs (w_cwd w) = true -> w_major w <> 2 -> asks w args fuel c versions files -> files <> [] ->
  asks w args1 fuel1 c1 versions1 files -> asks w args2 fuel2 c2 versions2 files ->
  analysed (w_hooks w) (w_major w) (local_config c) (w_file w) (w_ending w) files rs -> toured rs -> same_question c c1 -> same_question c c2 ->
  c_targets c = [t1; t2] -> c_targets c1 = [t1] -> c_targets c2 = [t2] -> fst (snd t1) <> fst (snd t2) ->
  c_only_show_violations c = false -> c_only_show_violations c1 = false -> c_only_show_violations c2 = false ->
  (succeeds w fuel args <-> succeeds w fuel1 args1 /\ succeeds w fuel2 args2).
Proof.
  intros w fuel args c versions files rs fuel1 args1 c1 versions1 fuel2 args2 c2 versions2 t1 t2 Cp Cw M A N A1 A2 An To S1 S2 T T1 T2 D V V1 V2.
  destruct (one_verdict w fuel args c versions files rs Cp Cw M A N An To) as (s & _ & _ & K).
  rewrite (proj1 (K _ _ _ _ A (question_refl c))).
  rewrite (proj1 (K _ _ _ _ A1 S1)), (proj1 (K _ _ _ _ A2 S2)), (passes_pair _ _ _ _ T D V), (passes_single _ _ _ T1 V1), (passes_single _ _ _ T2 V2). reflexivity.
Qed.
Print Assumptions c84_each.

(** With --violations it succeeds as well if nothing was detected, and otherwise in the same cases. *)
Theorem c84_violations : forall w fuel args c versions files rs fuel' args' c' versions',
  0 < w_cpus w -> isabs (w_cwd w) = true -> w_major w <> 2 -> asks w args fuel c versions files -> asks w args' fuel' c' versions' files -> files <> [] ->
  analysed (w_hooks w) (w_major w) (local_config c) (w_file w) (w_ending w) files rs -> toured rs -> same_question c c' ->
  c_targets c = c_targets c' -> c_only_show_violations c = false -> c_only_show_violations c' = true ->
  exists s, snd (process (w_hooks w) (w_major w) (local_config c) (w_file w) (w_ending w) (c_processes (local_config c)) files) = Ok s /\
    (succeeds w fuel' args' <-> succeeds w fuel args \/ nothing_detected (m_mins s)).
Proof.
  intros w fuel args c versions files rs fuel' args' c' versions' Cp Cw M A A' N An To S T V V'.
  destruct (one_verdict w fuel args c versions files rs Cp Cw M A N An To) as (s & E & _ & K). exists s. split; [exact E|].
  rewrite (proj1 (K _ _ _ _ A (question_refl c))).
  rewrite (proj1 (K _ _ _ _ A' S)). unfold passes. rewrite T, V, V'. split.
  - intros [H|[H|[_ H]]]; auto.
  - intros [[H|[H|[H _]]]|H]; auto. discriminate H.
Qed.
Print Assumptions c84_violations.

(** ** A source that imports argparse (2.7, 3.2), for several targets *)
Definition least_args (t : list string) : list string := t ++ ["a.py"].
Definition least_given : list (list string) := [[]; ["-t=3.2-"]; ["-t=3.1-"]; ["-t=3.9-"; "-vvv"]; ["-t=3.2"]; ["-t=3.9"]; ["-t=2.7-"; "-t=3.2-"]; ["-t=3.2-"; "--violations"]].
Lemma equal_question c c' : c_exclusions_set c = c_exclusions_set c' -> c_features c = c_features c' -> c_backports c = c_backports c' ->
  c_eval_annotations c = c_eval_annotations c' -> c_ignore_incomp c = c_ignore_incomp c' -> c_parse_comments c = c_parse_comments c' ->
  c_pessimistic c = c_pessimistic c' -> c_format c = c_format c' -> same_question c c'.
Proof. intros E1 E2 E3 E4 E5 E6 E7 E8. unfold same_question, same_reading, same_analysis. rewrite E1, E2. intuition. Qed.
Lemma least_ask t printed : let c := whole_config (least_args t) in
  parse 4 (fun _ => true) (fun _ => None) "/w" (w_cfg_file whole_world) (w_detected whole_world) (least_args t) (default_config 4) = Ok (c, OPaths ["a.py"] false printed) ->
  found_files whole_world c 3 ["a.py"] = Some (Ok ["/w/a.py"]) -> asks whole_world (least_args t) 3 c false ["/w/a.py"].
Proof. intros c P F. exists ["a.py"], printed. split; [exact P|exact F]. Qed.
Lemma least_asks t : In t least_given -> asks whole_world (least_args t) 3 (whole_config (least_args t)) false ["/w/a.py"] /\
  same_question (whole_config (least_args [])) (whole_config (least_args t)).
Proof.
  intros I. cbn [least_given In] in I. pose (p := ["Using detected config: /w/vermin.ini"]).
  destruct I as [<-|[<-|[<-|[<-|[<-|[<-|[<-|[<-|[]]]]]]]]]; (split; [|apply equal_question; run]); apply (least_ask _ p); run.
Qed.
Example c84_case : let w := whole_world in let c := whole_config (least_args []) in let rs := whole_results (local_config c) ["/w/a.py"] in
  0 < w_cpus w /\ isabs (w_cwd w) = true /\ w_major w <> 2 /\
  (forall t, In t least_given -> asks w (least_args t) 3 (whole_config (least_args t)) false ["/w/a.py"] /\ same_question c (whole_config (least_args t))) /\
  analysed (w_hooks w) (w_major w) (local_config c) (w_file w) (w_ending w) ["/w/a.py"] rs /\ toured rs /\ c_format c = FDefault /\ c_quiet c = false /\
  enough (Some (2, 7), Some (3, 2)) (3, 4) /\ ~ enough (Some (2, 7), Some (3, 2)) (3, 1) /\
  map (fun t => option_map snd (main w 3 (least_args t))) least_given = map (fun n => Some (Ok n)) [0; 0; 1; 0; 0; 1; 0; 0].
Proof.
  cbv zeta. split; [reflexivity|]. split; [reflexivity|]. split; [discriminate|]. split; [exact least_asks|]. split; [analyse|].
  split; [intros r I; revert I; vm_compute; intros [I|[]]; injection I as <-; discriminate|]. split; [run|]. split; [run|].
  split; [exists (3, 2); split; [right; reflexivity|split; [reflexivity|right; cbn; lia]]|].
  split; [intros (r & [H|H] & F & L); injection H as <-; cbn in F; unfold ver_le in L; cbn in L; lia|]. run.
Qed.
