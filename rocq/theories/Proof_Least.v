(** Lemmas for C84. *)
From Verif Require Import PyBase PyLemmas Utility RulesData Rules Config Formats Paths AstKinds Ast State Visitor
  MinVersions Parser Detection Arguments Pool Processor Main Spec_Base Spec_Utility Spec_Rules Spec_MinVersions Spec_Main Spec_Valid Spec_Targets Spec_Same Spec_Least
  Proof_Utility Proof_Main Proof_Report Proof_Valid Proof_Targets Proof_Args Proof_Verdict Proof_Library.
From Coq Require Import Lia.

Lemma local_same c c' : same_question c c' -> same_reading (local_config c) (local_config c') /\ c_format (local_config c) = c_format (local_config c').
Proof. intros S. unfold local_config. destruct (_ && _), (_ && _); exact S. Qed.
Lemma local_targets_given c : targets_given c -> targets_given (local_config c).
Proof. intros T. unfold local_config. destruct (_ && _); exact T. Qed.
Lemma local_procs c : c_processes (local_config c) = c_processes c.
Proof. unfold local_config. destruct (_ && _); reflexivity. Qed.
Lemma local_path c p : path_ok c p = true -> path_ok (local_config c) p = true.
Proof. unfold local_config. destruct (_ && _); exact (fun H => H). Qed.

Section Two.
  Variables (w : world) (fuel : nat) (args : list string) (c : config) (versions : bool) (files : list string) (rs : list (option presult)).
  Hypotheses (Cpus : 0 < w_cpus w) (Cwd : isabs (w_cwd w) = true) (Major : w_major w <> 2).
  Hypothesis Asks : asks w args fuel c versions files.
  Hypothesis Files : files <> [].
  Hypothesis An : analysed (w_hooks w) (w_major w) (local_config c) (w_file w) (w_ending w) files rs.
  Hypothesis To : toured rs.

  (** All runs with the same question come to the same verdict, and end accordingly. *)
  Lemma one_verdict : exists s,
    snd (process (w_hooks w) (w_major w) (local_config c) (w_file w) (w_ending w) (c_processes (local_config c)) files) = Ok s /\ report_ok (m_mins s) /\
    forall args' fuel' c' versions', asks w args' fuel' c' versions' files -> same_question c c' ->
      (succeeds w fuel' args' <-> passes c' (m_mins s)) /\ forall t, In t (c_targets c') -> in_range (snd t).
  Proof.
    assert (Pr : forall args' fuel' c' versions', asks w args' fuel' c' versions' files ->
      1 <= c_processes c' /\ targets_given c' /\ (forall t, In t (c_targets c') -> in_range (snd t)) /\ forall p, In p files -> path_ok c' p = true).
    { intros args' fuel' c' versions' (paths & printed & P & F).
      assert (V : valid (w_re_ok w) c') by (eapply parse_valid; [exact Cpus|exact P|apply v_default; exact Cpus]). destruct V as [Vp _ _ _ _ [_ Vt]].
      rewrite Forall_forall in Vt. split; [lia|]. destruct (checks_hold _ _ _ _ _ _ _ _ _ _ _ _ P) as (K & _ & _). split; [intros X; exact (proj1 (K X))|]. split; [exact Vt|].
      intros p I. exact (found_ok w c' fuel' paths files p Cwd F I). }
    destruct (Pr _ _ _ _ Asks) as (N & Tg & _ & Po).
    assert (N' : 1 <= c_processes (local_config c)) by (rewrite local_procs; exact N).
    destruct (process_ok _ _ _ _ _ _ _ _ An To N') as (a & E & _).
    destruct (process_report_ok _ _ _ _ _ _ _ _ _ _ An To N' Major E) as [R _].
    exists (summary_of a). split; [rewrite E; reflexivity|]. split; [exact R|]. intros args' fuel' c' versions' A' S.
    destruct (Pr _ _ _ _ A') as (M & Tg' & Rg & Po'). destruct (local_same c c' S) as [S1 S2].
    assert (M' : 1 <= c_processes (local_config c')) by (rewrite local_procs; exact M).
    assert (Q : snd (process (w_hooks w) (w_major w) (local_config c') (w_file w) (w_ending w) (c_processes (local_config c')) files) = Ok (summary_of a)).
    { rewrite (process_count _ _ _ _ _ _ _ _ _ An N' M') in E. destruct (w_hooks w) as [sd d].
      rewrite <- (run_same_summary sd d d (w_major w) (local_config c) (local_config c') (w_file w) (w_ending w) (c_processes (local_config c')) files S1
        (local_targets_given _ Tg) (local_targets_given _ Tg') (fun p I => conj (local_path _ _ (Po p I)) (local_path _ _ (Po' p I))) (fun _ _ _ _ _ => or_introl S2)), E.
      reflexivity. }
    destruct (process (w_hooks w) (w_major w) (local_config c') (w_file w) (w_ending w) (c_processes (local_config c')) files) as [o r] eqn:Ep. cbn [snd] in Q. subst r.
    assert (Rc := run_code w c' versions' files o (summary_of a) Ep Files).
    destruct R as (W2 & W3 & _). assert (Fp := failed_passes c' (m_mins (summary_of a)) W2 W3 Rg).
    destruct A' as (paths' & printed' & P' & F').
    unfold succeeds, main. rewrite P', F'. destruct (run_files w c' versions' files) as [out r]. cbn [snd] in Rc. subst r.
    destruct (targets_failed c' (reqs_of (m_mins (summary_of a)))).
    - split; [|exact Rg]. split; [intros [x X]; discriminate X|]. intros X. apply Fp in X. discriminate X.
    - split; [|exact Rg]. split; [intros _; apply Fp; reflexivity|]. intros _. eexists. reflexivity.
  Qed.
End Two.

(** *** Targets *)
Lemma counts_single {A} (maj : A -> Z) x y : counts maj [x] y <-> y = x.
Proof.
  split.
  - intros (a & b & E & _). destruct a as [|z a]; [injection E as -> _; reflexivity|]. destruct a; discriminate E.
  - intros ->. exists [], []. split; [reflexivity|intros z []].
Qed.
Lemma passes_single c m t : c_targets c = [t] -> c_only_show_violations c = false -> (passes c m <-> exists r, required m r /\ target_ok t r).
Proof.
  intros T V. unfold passes, targets_passed, target_counts. rewrite T, V. split.
  - intros [H|[H|[H _]]]; try discriminate. apply H. apply counts_single. reflexivity.
  - intros H. right. left. intros t' K. apply counts_single in K. subst t'. exact H.
Qed.
Lemma passes_pair c m t t' : c_targets c = [t; t'] -> fst (snd t) <> fst (snd t') -> c_only_show_violations c = false ->
  (passes c m <-> (exists r, required m r /\ target_ok t r) /\ exists r, required m r /\ target_ok t' r).
Proof.
  intros T N V. unfold passes, targets_passed, target_counts. rewrite T, V.
  assert (K : forall x, counts (fun t : target => fst (snd t)) [t; t'] x <-> x = t \/ x = t').
  { intros x. split.
    - intros (a & b & E & _). destruct a as [|z a]; [injection E as -> _; left; reflexivity|]. injection E as _ E.
      destruct a as [|z' a]; [injection E as -> _; right; reflexivity|]. destruct a; discriminate E.
    - intros [-> | ->]; [exists [], [t']|exists [t], []]; (split; [reflexivity|]); [intros y [<-|[]]; congruence|intros y []]. }
  split.
  - intros [H|[H|[H _]]]; try discriminate. split; apply H, K; auto.
  - intros [H H']. right. left. intros x X. apply K in X as [-> | ->]; assumption.
Qed.
Lemma own_major m r v : report_ok m -> required m r -> fst r = fst v -> fst v <> 0 -> (enough m v <-> ver_le r v).
Proof.
  intros (W2 & W3 & _) Rq F N. split; [|intros L; exists r; auto]. intros (r' & Rq' & F' & L).
  assert (X : r' = r); [|subst r'; exact L]. destruct m as [a b]. unfold required in *. cbn [fst snd] in *.
  assert (Y : forall n o x, wf_part n o -> o = Some x -> fst x <> 0 -> fst x = n).
  { intros n o x W -> Z. destruct W as [->|[W _]]; [contradiction Z; reflexivity|exact W]. }
  destruct Rq as [Rq|Rq], Rq' as [Rq'|Rq']; try congruence.
  - assert (Z := Y 2 a r W2 Rq ltac:(congruence)). assert (Z' := Y 3 b r' W3 Rq' ltac:(congruence)). congruence.
  - assert (Z := Y 3 b r W3 Rq ltac:(congruence)). assert (Z' := Y 2 a r' W2 Rq' ltac:(congruence)). congruence.
Qed.
Lemma question_refl c : same_question c c.
Proof. repeat split; auto. Qed.
