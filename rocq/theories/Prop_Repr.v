(** C76: what the printed form of a configuration tells. *)
From Coq Require Import Permutation.
From Verif Require Import PyBase Utility RulesData Rules Config ConfigRepr Spec_Repr Proof_Repr.

(** Configurations that print alike have the same settings, in whatever orders Python lists the two
    configurations' sets. *)
Theorem c76_tells : forall o p a b, lists_sets o -> lists_sets p ->
  config_repr o a = config_repr p b -> same_settings a b.
Proof. exact repr_tells. Qed.

(** The same settings print alike if Python lists equal sets in the same order. *)
Theorem c76_same : forall o a b, (forall l m, Permutation l m -> o l = o m) -> same_settings a b ->
  config_repr o a = config_repr o b.
Proof. exact same_repr. Qed.

(** Every setting has a line of its own, whatever characters its value has. *)
Theorem c76_lines : forall o c, exists vs, one_line_each (config_repr o c) vs.
Proof. intros. eexists. apply repr_lines. Qed.

(** Those lines say what the settings are. *)
Theorem c76_shows : forall o c n t, shows c n t ->
  In ("  " +++ n +++ " = " +++ t) (split_char (ascii_of_nat 10) (config_repr o c)).
Proof. exact repr_shows. Qed.

(** Hypotheses are met: an exclusion with a quote, a backslash and a line break in it. *)
Definition odd_name : string := "it's" +++ nl +++ chr bs +++ chr dq.
Definition repr_config : config :=
  w_targets [(true, (2, 7)); (false, (3, 8))] (add_exclusion "a" (add_exclusion odd_name (default_config 4))).
Example c76_case :
  lists_sets (fun l => l) /\
  shows repr_config "exclusions" (list_repr ["a"; odd_name]) /\
  In ("  exclusions = ['a', 'it\'s\n\\" +++ chr dq +++ "']") (split_char (ascii_of_nat 10) (config_repr (fun l => l) repr_config)) /\
  In "  targets = [(True, (2, 7)), (False, (3, 8))]" (split_char (ascii_of_nat 10) (config_repr (fun l => l) repr_config)) /\
  config_repr (fun l => l) repr_config <> config_repr (fun l => l) (default_config 4) /\
  same_settings repr_config
    (w_targets [(true, (2, 7)); (false, (3, 8))] (add_exclusion odd_name (add_exclusion "a" (default_config 4)))).
Proof.
  split; [intros l; reflexivity|]. split.
  { constructor. split; [vm_compute; apply perm_swap || reflexivity|]. repeat constructor. }
  split; [vm_compute; tauto|]. split; [vm_compute; tauto|]. split; [vm_compute; discriminate|].
  constructor; try reflexivity. vm_compute. apply perm_swap.
Qed.

Print Assumptions c76_tells.
Print Assumptions c76_same.
Print Assumptions c76_lines.
Print Assumptions c76_shows.
