(** C82: in violations mode a run fails exactly if it tells of something above a target. *)
From Verif Require Import PyBase PyLemmas Utility RulesData Rules Config Formats Paths AstKinds Ast State Visitor MinVersions Parser Detection Arguments
  Processor Main Spec_Base Spec_Utility Spec_Rules Spec_Formats Spec_Visitor Spec_MinVersions Spec_Explain Spec_Main Spec_Targets Spec_Valid Spec_Failing
  Proof_Utility Proof_Formats Proof_Main Proof_Valid Proof_Config Proof_Args Proof_Report Proof_Targets Proof_Failing Samples Trees Prop_Visitor Prop_Main Prop_Targets Prop_Whole.
From Coq Require Import Lia.

Lemma local_violations c : c_only_show_violations c = true -> let lc := local_config c in
  c_quiet lc = false /\ c_verbose lc = c_verbose c /\ c_only_show_violations lc = true /\ c_targets lc = c_targets c /\
  c_pessimistic lc = c_pessimistic c /\ c_processes lc = c_processes c.
Proof. intros V. unfold local_config. rewrite V. cbn [andb]. destruct (c_quiet c) eqn:Q; cbn; auto 10. Qed.

(** One file: its verdict is above a target exactly if some line about it tells of versions that are. *)
Theorem c82_file_partial : forall h major c file p how r m x t, c_quiet c = false -> 3 <= c_verbose c -> c_only_show_violations c = true ->
  targets_in_scope (c_targets c) -> no_long h major c file p ->
  snd (process_individual h major c p (file p) how) = Ok (Some r) -> r_mins r = MVers m -> In (x, t) (c_targets c) ->
  (above m t <-> exists q, finding h major c file p q /\ above q t).
Proof. exact file_finding. Qed.
Print Assumptions c82_file_partial.

(** A whole run from verbosity 3 on and with upper bounds as targets. *)
Theorem c82_run_partial : forall w fuel args c paths versions printed files rs, 0 < w_cpus w ->
  parse (w_cpus w) (w_re_ok w) (w_excl_file w) (w_cwd w) (w_cfg_file w) (w_detected w) args (default_config (w_cpus w))
    = Ok (c, OPaths paths versions printed) ->
  found_files w c fuel paths = Some (Ok files) ->
  let lc := local_config c in
  analysed (w_hooks w) (w_major w) lc (w_file w) (w_ending w) files rs -> toured rs -> combinable lc rs -> w_major w <> 2 ->
  c_only_show_violations c = true -> 3 <= c_verbose c -> c_pessimistic c = false -> targets_in_scope (c_targets c) -> upper_bounds c ->
  (forall p, In p files -> no_long (w_hooks w) (w_major w) lc (w_file w) p) ->
  exists out code, main w fuel args = Some (out, Ok code) /\ (code = 0 \/ code = 1) /\
    (code = 1 <-> files = [] \/ exists p q, In p files /\ finding (w_hooks w) (w_major w) lc (w_file w) p q /\ above_some c q).
Proof.
  intros w fuel args c paths versions printed files rs Cp P F lc A T Co M V V3 Pe TS UB NL.
  destruct (local_violations c V) as (L1 & L2 & L3 & L4 & L5 & L6). fold lc in L1, L2, L3, L4, L5, L6.
  assert (Va : valid (w_re_ok w) c) by (eapply parse_valid; [exact Cp|exact P|apply v_default; exact Cp]). destruct Va as [Vp _ _ _ _ _].
  assert (N : 1 <= c_processes lc) by (rewrite L6; lia).
  destruct (c54_any_targets w fuel args c paths versions printed files rs Cp P F A T M) as (out & code & Mn & Cd & I).
  exists out, code. split; [exact Mn|]. split; [exact Cd|]. fold lc in I.
  destruct (process_ok _ _ _ _ _ _ _ _ A T N) as (a & Pr & _).
  assert (G := files_finding (w_hooks w) (w_major w) lc (w_file w) (w_ending w) files rs (c_processes lc) _ _ L1 ltac:(lia) L3
    ltac:(rewrite L4; exact TS) ltac:(unfold upper_bounds; rewrite L4; exact UB) ltac:(congruence) M N A T Co NL Pr).
  destruct G as [So G]. unfold above_some in G. rewrite L4 in G. fold (above_some c (m_mins (summary_of a))) in G.
  assert (Ps := passes_below c _ V TS UB So).
  assert (I' : code = 0 <-> files <> [] /\ ~ above_some c (m_mins (summary_of a))).
  { rewrite I, Pr. cbn [snd]. split.
    - intros [Nf (s & E & S)]. injection E as <-. split; [exact Nf|apply Ps; exact S].
    - intros [Nf S]. split; [exact Nf|]. exists (summary_of a). split; [reflexivity|apply Ps; exact S]. }
  assert (D : above_some c (m_mins (summary_of a)) \/ ~ above_some c (m_mins (summary_of a))).
  { destruct (Exists_dec (fun t : target => above (m_mins (summary_of a)) (snd t)) (c_targets c) (fun t => above_dec _ _)) as [X|X].
    - apply Exists_exists in X as ([x t] & J & B). left. exists x, t. auto.
    - right. intros (x & t & J & B). apply X, Exists_exists. exists (x, t). auto. }
  split.
  - intros E. destruct files as [|f fs]; [left; reflexivity|]. right. apply G. destruct D as [D|D]; [exact D|].
    assert (K : code = 0) by (apply I'; split; [discriminate|exact D]). lia.
  - intros K. destruct Cd as [E|E]; [|exact E]. apply I' in E as [Nf S]. destruct K as [K|K]; [contradiction|]. apply G in K. contradiction.
Qed.
Print Assumptions c82_run_partial.

(** So a run that says nothing, neither itself nor in its workers, succeeds. *)
Theorem c82_silent_partial : forall w fuel args c paths versions printed files rs code, 0 < w_cpus w ->
  parse (w_cpus w) (w_re_ok w) (w_excl_file w) (w_cwd w) (w_cfg_file w) (w_detected w) args (default_config (w_cpus w))
    = Ok (c, OPaths paths versions printed) ->
  found_files w c fuel paths = Some (Ok files) -> files <> [] ->
  let lc := local_config c in
  analysed (w_hooks w) (w_major w) lc (w_file w) (w_ending w) files rs -> toured rs -> combinable lc rs -> w_major w <> 2 ->
  c_only_show_violations c = true -> 3 <= c_verbose c -> c_pessimistic c = false -> targets_in_scope (c_targets c) -> upper_bounds c ->
  (forall p, In p files -> no_long (w_hooks w) (w_major w) lc (w_file w) p) ->
  main w fuel args = Some ("", Ok code) ->
  (forall p, In p files -> fst (process_individual (w_hooks w) (w_major w) lc p (w_file w p) (w_ending w p)) = []) -> code = 0.
Proof.
  intros w fuel args c paths versions printed files rs code Cp P F Nf lc A T Co M V V3 Pe TS UB NL Mn W.
  destruct (c82_run_partial w fuel args c paths versions printed files rs Cp P F A T Co M V V3 Pe TS UB NL) as (out & code' & Mn' & Cd & I).
  rewrite Mn in Mn'. injection Mn' as <- <-. destruct Cd as [E|E]; [exact E|]. exfalso. apply I in E as [E|(p & q & Ip & Fi & _)]; [contradiction|].
  destruct (local_violations c V) as (L1 & L2 & L3 & L4 & L5 & L6). fold lc in L1, L2, L3, L4, L5, L6, Fi.
  assert (Va : valid (w_re_ok w) c) by (eapply parse_valid; [exact Cp|exact P|apply v_default; exact Cp]). destruct Va as [Vp _ _ _ _ _].
  assert (N : 1 <= c_processes lc) by (rewrite L6; lia).
  destruct (process_ok _ _ _ _ _ _ _ _ A T N) as (a & Pr & _).
  assert (Em : a_out a = "").
  { unfold main in Mn. rewrite P, F in Mn. destruct (run_files w c versions files) as [o rr] eqn:E. injection Mn as Mo _.
    apply s_app_nil in Mo as [_ Mo]. subst o. unfold run_files in E. destruct files as [|f fs]; [contradiction|].
    fold lc in E. rewrite Pr in E. destruct (report c versions (summary_of a)) as [[lines cd]|x]; injection E as E _;
      apply s_app_nil in E as [_ E]; [apply s_app_nil in E as [E _]|]; exact E. }
  rewrite Em in Pr. exact (silent_no_finding _ _ _ _ _ _ _ _ _ L1 ltac:(lia) N A T Pr W p q Ip Fi).
Qed.
Print Assumptions c82_silent_partial.

(** ** Cases *)
Definition lint_args (t : string) : list string := ["-vvv"; "--violations"; "-q"; t; "a.py"].
Definition lint_rule : mins := (Some (2, 7), Some (3, 2)).
Example c82_case : let w := whole_world in let c := whole_config (lint_args "-t=3.1-") in let lc := local_config c in
  let rs := whole_results lc ["/w/a.py"] in
  parse (w_cpus w) (w_re_ok w) (w_excl_file w) (w_cwd w) (w_cfg_file w) (w_detected w) (lint_args "-t=3.1-") (default_config (w_cpus w))
    = Ok (c, OPaths ["a.py"] false []) /\
  found_files w c 3 ["a.py"] = Some (Ok ["/w/a.py"]) /\ 0 < w_cpus w /\ w_major w <> 2 /\
  analysed (w_hooks w) (w_major w) lc (w_file w) (w_ending w) ["/w/a.py"] rs /\ toured rs /\ combinable lc rs /\
  c_only_show_violations c = true /\ 3 <= c_verbose c /\ c_pessimistic c = false /\ targets_in_scope (c_targets c) /\ upper_bounds c /\
  no_long (w_hooks w) (w_major w) lc (w_file w) "/w/a.py" /\ above_some c lint_rule /\
  main w 3 (lint_args "-t=3.1-") = Some (print_lines ["2.7, 3.2     /w/a.py"; "  L1 C7: 'argparse' module requires 2.7, 3.2"; ""], Ok 1) /\
  main w 3 (lint_args "-t=3.4-") = Some ("", Ok 0).
Proof.
  cbv zeta. assert (Ts : c_targets (whole_config (lint_args "-t=3.1-")) = [(false, (3, 1))]) by run.
  split; [run|]. split; [run|]. split; [reflexivity|]. split; [discriminate|]. split; [analyse|].
  split; [intros r I; revert I; vm_compute; intros [I|[]]; injection I as <-; discriminate|].
  split; [right; intros a b (r & I & M) (r' & I' & M'); revert I I'; vm_compute; intros [I|[]] [I'|[]]; injection I as <-; injection I' as <-;
          injection M as <-; injection M' as <-; intros [[[_ K] _]|[[K _] _]]; discriminate K|].
  split; [run|]. split; [vm_compute; discriminate|]. split; [run|]. rewrite Ts.
  split; [left; exists false, (3, 1); split; [reflexivity|right; reflexivity]|].
  split; [unfold upper_bounds; rewrite Ts; intros x t [I|[]]; injection I as <- _; reflexivity|].
  split.
  { intros source text node nov e s F P V T.
    assert (Fs : w_file whole_world "/w/a.py" = FcSource src_argparse sample_argparse) by run. rewrite Fs in F. injection F as <- <-.
    revert P V T. intros P. vm_compute in P. injection P as <- <-. intros V. vm_compute in V. injection V as <-. intros T. vm_compute in T.
    injection T as <-. vm_compute. intuition discriminate. }
  split; [unfold above_some; rewrite Ts; exists false, (3, 1); split; [left; reflexivity|unfold above, ver_lt; cbn; lia]|].
  split; vm_compute; reflexivity.
Qed.

(** ** Where it does not hold *)
Definition one_world (t : parsed) : world :=
  mkWorld 4 3 "/w" (mkFs whole_stat whole_stat (fun _ => None) (fun _ => None)) (fun _ => true)
          (fun _ _ => false) (fun _ => None) (w_cfg_file whole_world) (Ok None) (fun _ => FcSource "" t) all_done no_hooks.
Definition module_of (l : list pyval) : parsed := PTree (VNode KModule 1%N None [("body", VList l); ("type_ignores", VList [])]) (inr []).
Definition expr_of (line : Z) (v : pyval) : pyval := VNode KExpr 2%N (Some (line, 0)) [("value", v)].

(** A target that is to be met exactly is missed without a word by what needs less. *)
Theorem c82_exact_refuted : exists w args, main w 3 args = Some ("", Ok 1) /\ args = ["-vvv"; "--violations"; "-q"; "-t=3.4"; "a.py"] /\
  found_files w (whole_config args) 3 ["a.py"] = Some (Ok ["/w/a.py"]).
Proof. exists whole_world, (lint_args "-t=3.4"). split; [run|]. split; [reflexivity|run]. Qed.
Print Assumptions c82_exact_refuted.

(** [True] alone needs 2.3; without -vvv the run fails for -t=2.2- and does not say why. *)
Theorem c82_verbosity_refuted : exists t, 
  main (one_world t) 3 ["--violations"; "-q"; "-t=2.2-"; "a.py"] = Some ("", Ok 1) /\
  main (one_world t) 3 ["-vvv"; "--violations"; "-q"; "-t=2.2-"; "a.py"] =
    Some (print_lines ["2.3, 3.0     /w/a.py"; "  L1: True/False constant requires 2.3, 3.0"; ""], Ok 1).
Proof.
  exists (module_of [expr_of 1 (VNode KConstant 3%N (Some (1, 0)) [("value", VBool true); ("kind", VNone)])]). split; run.
Qed.
Print Assumptions c82_verbosity_refuted.

(** A text that cannot be parsed rules Python 3 out if --pessimistic is given, and a run with a target of Python 3
    fails; in violations mode it does not. *)
Theorem c82_pessimistic_refuted : exists t,
  main (one_world t) 3 ["--pessimistic"; "-q"; "-t=3.4-"; "a.py"] = Some ("", Ok 1) /\
  main (one_world t) 3 ["-vvv"; "--violations"; "--pessimistic"; "-q"; "-t=3.4-"; "a.py"] = Some ("", Ok 0) /\
  exists s, snd (process no_hooks 3 (local_config (whole_config ["-vvv"; "--violations"; "--pessimistic"; "-q"; "-t=3.4-"; "a.py"]))
    (fun _ => FcSource "" t) all_done 1 ["/w/a.py"]) = Ok s /\ above (m_mins s) (3, 4).
Proof.
  exists (PErr (PeSyntax (mkSyn (Some "x =") "invalid syntax" "/w/a.py" "1" "4"))). split; [run|]. split; [run|].
  eexists. split; [vm_compute; reflexivity|]. exact I.
Qed.
Print Assumptions c82_pessimistic_refuted.

(** Nor does it fail for a file that can run on no Python at all. *)
Theorem c82_torn_refuted : exists t,
  main (one_world t) 3 ["-vvv"; "--violations"; "-q"; "-t=2.7-"; "a.py"] =
    Some (print_lines ["File with incompatible versions: /w/a.py"; "  Versions could not be combined: 2.0, !3 and !2, 3.0"], Ok 0).
Proof.
  exists (module_of [expr_of 1 (VNode KName 3%N (Some (1, 0)) [("id", VStr "long"); ("ctx", VNode KLoad 4%N None [])]);
                     expr_of 2 (VNode KConstant 6%N (Some (2, 0)) [("value", VEllipsis); ("kind", VNone)])]). run.
Qed.
Print Assumptions c82_torn_refuted.
