(** C07 and C54 for any targets, among them several for one major version. *)
From Verif Require Import PyBase PyLemmas Utility RulesData Rules Config Formats Paths AstKinds Ast State Visitor
  MinVersions Parser Detection Arguments Pool Processor Main Spec_Base Spec_Utility Spec_Rules Spec_MinVersions Spec_Main Spec_Valid Spec_Targets
  Proof_Utility Proof_Main Proof_Report Proof_Valid Proof_Targets Samples Samples_Tips Prop_Visitor Prop_Main Prop_Tips Prop_Whole.

(** Any requirements and any targets: of those for one major version, the last one counts. *)
Theorem c07_any_targets : forall reqs targets, compare_requirements reqs targets = true <->
  targets <> [] /\ forall t, target_counts targets t -> exists r, counts fst reqs r /\ target_ok t r.
Proof. exact compare_counts. Qed.
Print Assumptions c07_any_targets.

(** Every major version that is asked for has one that counts, and no other if there is one for each. *)
Theorem c07_counted : forall A (maj : A -> Z) l x,
  (counts maj l x -> In x l) /\ (In x l -> exists y, counts maj l y /\ maj y = maj x) /\
  (forall y, counts maj l x -> counts maj l y -> maj x = maj y -> x = y) /\
  (one_per_major maj l -> In x l -> counts maj l x).
Proof.
  intros A maj l x. split; [apply counts_In|]. split; [apply counts_exists|]. split.
  - intros y C D E. apply (fun H => proj2 (last_counts maj l (maj x) x) (conj H eq_refl)) in C.
    assert (D' := proj2 (last_counts maj l (maj x) y) (conj D (eq_sym E))). congruence.
  - intros O. apply (counts_one maj l x O).
Qed.
Print Assumptions c07_counted.

(** The exit code of a run that found files, and of a whole run: nothing is asked of the targets, nor of the configuration. *)
Theorem c54_any_targets : forall w fuel args c paths versions printed files rs, 0 < w_cpus w ->
  parse (w_cpus w) (w_re_ok w) (w_excl_file w) (w_cwd w) (w_cfg_file w) (w_detected w) args (default_config (w_cpus w))
    = Ok (c, OPaths paths versions printed) ->
  found_files w c fuel paths = Some (Ok files) ->
  let lc := local_config c in
  analysed (w_hooks w) (w_major w) lc (w_file w) (w_ending w) files rs -> toured rs -> w_major w <> 2 ->
  exists out code, main w fuel args = Some (out, Ok code) /\ (code = 0 \/ code = 1) /\
    (code = 0 <-> files <> [] /\ exists s, snd (process (w_hooks w) (w_major w) lc (w_file w) (w_ending w) (c_processes lc) files) = Ok s /\
                                           passes c (m_mins s)).
Proof.
  intros w fuel args c paths versions printed files rs Cp P F lc A T M.
  assert (V : valid (w_re_ok w) c) by (eapply parse_valid; [exact Cp|exact P|apply v_default; exact Cp]). destruct V as [Vp _ _ _ _ [_ Vt]].
  rewrite Forall_forall in Vt.
  assert (N : 1 <= c_processes lc) by (assert (X : c_processes lc = c_processes c) by (unfold lc, local_config; destruct (_ && _); reflexivity); lia).
  unfold main. rewrite P, F.
  destruct (run_files w c versions files) as [o r] eqn:E. destruct files as [|f fs].
  - assert (K := c54_no_files w c versions). rewrite E in K. cbn [snd] in K. subst r.
    do 2 eexists. split; [reflexivity|]. split; [right; reflexivity|]. split; [discriminate | intros [K _]; congruence].
  - destruct (process_ok _ _ _ _ _ _ _ _ A T N) as (a & Pr & _).
    destruct (process_report_ok _ _ _ _ _ _ _ _ _ _ A T N M Pr) as [(W2 & W3 & _) U].
    assert (Rn : exists code, snd (run_files w c versions (f :: fs)) = Ok code /\ (code = 0 \/ code = 1) /\ (code = 0 <-> passes c (m_mins (summary_of a)))).
    { eexists. split; [eapply run_code; eauto; discriminate|]. rewrite <- (failed_passes c (m_mins (summary_of a)) W2 W3 Vt).
      destruct (targets_failed c _); split; auto; split; intros K; try discriminate; auto. }
    destruct Rn as (code & Rn & C & I). rewrite E in Rn. cbn [snd] in Rn. subst r. do 2 eexists. split; [reflexivity|]. split; [exact C|].
    rewrite Pr. cbn [snd]. rewrite I. split.
    + intros K. split; [discriminate|]. exists (summary_of a). auto.
    + intros [_ (s' & K & S)]. injection K as <-. exact S.
Qed.
Print Assumptions c54_any_targets.

Theorem c54_one_per_major : forall c m, one_per_major (fun t : target => fst (snd t)) (c_targets c) -> (passes c m <-> success c m).
Proof. exact passes_success. Qed.
Print Assumptions c54_one_per_major.

(** Asked for 3.4 and for 3.8, what needs 3.8 passes; and so for 3.1 and 3.2, given in any order. *)
Definition two_args : list string := ["-t=3.2"; "-t=3.1"; "a.py"].
Example c07_any_case :
  target_counts [(true, (3, 4)); (true, (3, 8))] (true, (3, 8)) /\ ~ target_counts [(true, (3, 4)); (true, (3, 8))] (true, (3, 4)) /\
  compare_requirements [(3, 8)] [(true, (3, 4)); (true, (3, 8))] = true /\ compare_requirements [(3, 4)] [(true, (3, 4)); (true, (3, 8))] = false /\
  compare_requirements [(3, 5); (2, 7); (3, 8)] [(false, (3, 8)); (true, (2, 7)); (false, (3, 6))] = false.
Proof.
  split; [exists [(true, (3, 4))], []; split; [reflexivity|intros y []]|]. split.
  { intros (a & b & E & N). destruct a as [|x [|y a]]; [|injection E as _ E|injection E as _ _ E].
    - injection E as <-. exact (N _ (or_introl eq_refl) eq_refl).
    - discriminate E.
    - destruct a; discriminate. }
  repeat split.
Qed.
Example c54_any_case : let w := whole_world in let c := whole_config two_args in let lc := local_config c in
  let rs := whole_results lc ["/w/a.py"] in
  parse (w_cpus w) (w_re_ok w) (w_excl_file w) (w_cwd w) (w_cfg_file w) (w_detected w) two_args (default_config (w_cpus w))
    = Ok (c, OPaths ["a.py"] false ["Using detected config: /w/vermin.ini"]) /\
  c_targets c = [(true, (3, 1)); (true, (3, 2))] /\
  found_files w c 3 ["a.py"] = Some (Ok ["/w/a.py"]) /\ 0 < w_cpus w /\ w_major w <> 2 /\
  analysed (w_hooks w) (w_major w) lc (w_file w) (w_ending w) ["/w/a.py"] rs /\ toured rs /\
  option_map snd (main w 3 two_args) = Some (Ok 0).
Proof.
  cbv zeta. split; [run|]. split; [run|]. split; [run|]. split; [reflexivity|]. split; [discriminate|]. split; [analyse|]. split.
  - intros r I. revert I. vm_compute. intros [I|[]]. injection I as <-. discriminate.
  - run.
Qed.
