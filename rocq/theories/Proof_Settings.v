(** Proofs for C62. *)
From Verif Require Import PyBase PyLemmas Utility RulesData Rules Config Spec_Base Spec_Utility Spec_Config
  Proof_Config Spec_Settings.

Section S.
  Variable cpus : Z.
  Variable re_ok : string -> bool.

  Lemma add_file_same : forall ls c x, x <> SExclusions ->
    answer (fold_left (fun c l => add_exclusion (strip l) c) ls c) x = answer c x.
  Proof.
    induction ls as [|l ls IH]; intros c x Hx; simpl; auto.
    rewrite IH by auto. destruct x; try reflexivity. congruence.
  Qed.

  Ltac not_about H := exfalso; apply H; constructor; simpl; auto.

  Lemma step_same : forall c m x, ~ concerns m x -> answer (run_cmd cpus re_ok c m) x = answer c x.
  Proof.
    intros c m x H.
    destruct m; cbn [run_cmd];
      try (destruct x; first [reflexivity | not_about H]).
    - unfold add_exclusion_regex. destruct (re_ok p); [|reflexivity].
      destruct x; first [reflexivity | not_about H].
    - destruct content as [ls|]; cbn [add_exclusion_file]; [|reflexivity].
      apply add_file_same. intros ->. not_about H.
    - unfold add_backport. destruct (is_backport n); [|reflexivity].
      destruct x; first [reflexivity | not_about H].
    - unfold enable_feature. destruct (is_feature n); [|reflexivity].
      destruct x; first [reflexivity | not_about H].
    - unfold add_target. destruct (_ =? _)%nat; [reflexivity|].
      destruct t; try (destruct x; first [reflexivity | not_about H]).
      destruct (parse_target s); [|reflexivity].
      destruct x; first [reflexivity | not_about H].
    - destruct f; destruct x; first [reflexivity | not_about H].
  Qed.

  Lemma others_same : forall l c x, Forall (fun m => ~ concerns m x) l ->
    answer (run_cmds cpus re_ok l c) x = answer c x.
  Proof.
    induction l as [|m l IH]; intros c x H; [reflexivity|].
    inversion H; subst. unfold run_cmds in *. cbn [fold_left]. rewrite IH by auto.
    apply step_same; auto.
  Qed.

  Lemma given_now : forall c m x y, gives cpus m x y -> answer (run_cmd cpus re_ok c m) x = y.
  Proof.
    intros c m x y H. destruct H; try reflexivity; cbn [run_cmd answer].
    - unfold set_processes. apply Z.ltb_lt in H. rewrite H. reflexivity.
    - unfold set_processes. replace (0 <? p) with false by (symmetry; apply Z.ltb_ge; auto). reflexivity.
    - destruct f; reflexivity.
  Qed.

  Lemma last_given : forall l1 m l2 c x y, gives cpus m x y -> Forall (fun k => ~ concerns k x) l2 ->
    answer (run_cmds cpus re_ok (l1 ++ m :: l2) c) x = y.
  Proof.
    intros l1 m l2 c x y G F. unfold run_cmds. rewrite fold_left_app. cbn [fold_left].
    pose proof (others_same l2 (run_cmd cpus re_ok (fold_left (run_cmd cpus re_ok) l1 c) m) x F) as E.
    unfold run_cmds in E. rewrite E. apply given_now; auto.
  Qed.

  Lemma forgets_patterns_dec : forall m, {forgets_patterns m} + {~ forgets_patterns m}.
  Proof. destruct m; simpl; auto. Qed.

  Lemma pattern_step : forall p c m,
    In p (c_exclusion_regex_set (run_cmd cpus re_ok c m)) <->
    adds_pattern re_ok m p \/ (In p (c_exclusion_regex_set c) /\ ~ forgets_patterns m).
  Proof.
    intros p c m. destruct m; cbn [run_cmd adds_pattern forgets_patterns]; try (simpl; tauto).
    - unfold add_exclusion_regex. destruct (re_ok p0) eqn:E; simpl.
      + rewrite set_add_In. split; [intros [->|H]; auto|intros [[-> _]|[H _]]; auto].
      + split; auto. intros [[-> H]|[H _]]; [congruence|auto].
    - destruct content as [ls|]; cbn [add_exclusion_file]; [|simpl; tauto].
      pose proof (add_file_same ls c SExclusionPatterns) as E. revert E. generalize c. clear c.
      assert (E : forall c, c_exclusion_regex_set (fold_left (fun c l => add_exclusion (strip l) c) ls c) = c_exclusion_regex_set c).
      { induction ls as [|l ls IH]; intros c; simpl; auto. rewrite IH. reflexivity. }
      intros c _. rewrite E. tauto.
    - unfold add_backport. destruct (is_backport n); simpl; tauto.
    - unfold enable_feature. destruct (is_feature n); simpl; tauto.
    - unfold add_target. destruct (_ =? _)%nat; simpl; try tauto.
      destruct t; simpl; try tauto. destruct (parse_target s); simpl; tauto.
    - rewrite set_format_regex. simpl. tauto.
    - unfold override_from. rewrite set_format_regex. cbn [c_exclusion_regex_set].
      rewrite dedup_In. unfold exclusion_regex. rewrite isort_In. simpl. tauto.
  Qed.

  Lemma pattern_history : forall l c p,
    In p (exclusion_regex (run_cmds cpus re_ok l c)) <->
    since (fun m => adds_pattern re_ok m p) forgets_patterns l \/
    (Forall (fun m => ~ forgets_patterns m) l /\ In p (exclusion_regex c)).
  Proof.
    intros l c p. unfold exclusion_regex. rewrite !isort_In.
    apply (history_iff cpus re_ok (fun c => In p (c_exclusion_regex_set c))); auto using forgets_patterns_dec.
    intros. apply pattern_step.
  Qed.
End S.

(** [reset] gives the values of a new Config. *)
Lemma reset_default : forall cpus re_ok l1 l2 c x, Forall (fun k => ~ concerns k x) l2 ->
  answer (run_cmds cpus re_ok (l1 ++ CmdReset :: l2) c) x = answer (default_config cpus) x.
Proof.
  intros cpus re_ok l1 l2 c x F. unfold run_cmds. rewrite fold_left_app. cbn [fold_left run_cmd].
  apply (others_same cpus re_ok l2 (default_config cpus) x F).
Qed.
