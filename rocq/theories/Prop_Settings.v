(** C62: settings keep the value last given. *)
From Verif Require Import PyBase PyLemmas Utility RulesData Rules Config Spec_Base Spec_Utility Spec_Config
  Proof_Config Spec_Settings Proof_Settings.

Theorem c62_others_kept : forall cpus re_ok l c x, Forall (fun m => ~ concerns m x) l ->
  answer (run_cmds cpus re_ok l c) x = answer c x.
Proof. exact others_same. Qed.
Print Assumptions c62_others_kept.

Theorem c62_last_given : forall cpus re_ok l1 m l2 c x y, gives cpus m x y ->
  Forall (fun k => ~ concerns k x) l2 -> answer (run_cmds cpus re_ok (l1 ++ m :: l2) c) x = y.
Proof. exact last_given. Qed.
Print Assumptions c62_last_given.

Theorem c62_reset : forall cpus re_ok l1 l2 c x, Forall (fun k => ~ concerns k x) l2 ->
  answer (run_cmds cpus re_ok (l1 ++ CmdReset :: l2) c) x = answer (default_config cpus) x.
Proof. exact reset_default. Qed.
Print Assumptions c62_reset.

Theorem c62_patterns_since_clear : forall cpus re_ok l c p,
  In p (exclusion_regex (run_cmds cpus re_ok l c)) <->
  since (fun m => adds_pattern re_ok m p) forgets_patterns l \/
  (Forall (fun m => ~ forgets_patterns m) l /\ In p (exclusion_regex c)).
Proof. exact pattern_history. Qed.
Print Assumptions c62_patterns_since_clear.

(** Choosing the parsable format and the default one again leaves tips off, but nothing else the
    history below touched. *)
Definition c62_history : list cmd :=
  [CmdAddExclusionRegex "test_.*"; CmdAddExclusion "a"; CmdShowTips true; CmdProcesses 3; CmdVerbose 1].
Definition c62_later : list cmd :=
  [CmdFormat FParsable; CmdClearExclusions; CmdAddBackport "typing"; CmdFormat FDefault; CmdHidden true].

Example c62_case : forall c,
  Forall (fun k => ~ concerns k SProcesses) (CmdVerbose 1 :: c62_later) /\
  answer (run_cmds 8 (fun _ => true) (c62_history ++ c62_later) c) SProcesses = VInt 3 /\
  answer (run_cmds 8 (fun _ => true) (c62_history ++ c62_later) c) SShowTips = VBool false /\
  answer (run_cmds 8 (fun _ => true) (c62_history ++ c62_later) c) SExclusions = VNames [] /\
  In "test_.*" (exclusion_regex (run_cmds 8 (fun _ => true) (c62_history ++ c62_later) c)).
Proof.
  intros c.
  assert (F : Forall (fun k => ~ concerns k SProcesses) (CmdVerbose 1 :: c62_later)).
  { repeat constructor; intros H; inversion H; subst; simpl in *; intuition discriminate. }
  split; [exact F|]. split.
  { apply (c62_last_given 8 (fun _ => true) (firstn 3 c62_history) (CmdProcesses 3) (CmdVerbose 1 :: c62_later)); auto.
    constructor. reflexivity. }
  split.
  { apply (c62_last_given 8 (fun _ => true) c62_history (CmdFormat FParsable) (tl c62_later)); [constructor|].
    repeat constructor; intros H; inversion H; subst; simpl in *; intuition discriminate. }
  split.
  { apply (c62_last_given 8 (fun _ => true) (c62_history ++ [CmdFormat FParsable]) CmdClearExclusions (tl (tl c62_later)));
      [constructor|].
    repeat constructor; intros H; inversion H; subst; simpl in *; intuition discriminate. }
  apply c62_patterns_since_clear. left.
  exists [], (CmdAddExclusionRegex "test_.*"), (tl c62_history ++ c62_later).
  split; [reflexivity|]. split; [split; reflexivity|].
  repeat constructor; intros H; exact H.
Qed.
