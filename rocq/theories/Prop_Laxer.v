(** C67: with more backports, fewer features and more exclusions a verdict is never raised. The theorems named _partial
    leave out the exclusion of keyword arguments (c66_keyword_refuted) and the backport of typing_extensions
    (c67_extensions_refuted). *)
From Verif Require Import PyBase Utility RulesData Rules Config AstKinds Ast State Visitor MinVersions Parser Processor
  Spec_Base Spec_Visitor Spec_MinVersions Spec_Main Spec_Fewer Proof_Less Trees Samples Prop_Visitor Prop_Main Prop_Fewer.

(** Everything found with the laxer settings was found with the others; only what the features that are switched off
    ask for is lost, and what is excluded. *)
Theorem c67_records_partial : forall h c c' path source nov e e' v s,
  laxer c c' -> targets_given c -> targets_given c' ->
  make_visitor h c path source nov = Ok e -> make_visitor h c' path source nov = Ok e' -> tour e v = Ok s ->
  exists s', tour e' v = Ok s' /\ records_less [FLongV2; FUnionTypes; FFstringsSelfDoc] s' s.
Proof. intros h c c' path source nov e e' v s M T T'. exact (tour_laxer h h c c' path source nov e e' v s M T T' eq_refl). Qed.
Print Assumptions c67_records_partial.

(** A source that has a verdict keeps having one, no stricter than it was. *)
Theorem c67_detect_partial : forall h major c c' path source p m, laxer_reading c c' -> targets_given c -> targets_given c' ->
  api_detect h major c path source p = Ok m -> exists m', api_detect h major c' path source p = Ok m' /\ mins_le m' m.
Proof. exact detect_less. Qed.
Print Assumptions c67_detect_partial.

(** And so does a run over any number of files, with no new hints. *)
Theorem c67_run_partial : forall h major c c' file how n paths rs out s, laxer_reading c c' -> targets_given c -> targets_given c' ->
  analysed h major c file how paths rs -> toured rs -> 1 <= n -> process h major c file how n paths = (out, Ok s) -> m_incomp s = false ->
  exists out' s', process h major c' file how n paths = (out', Ok s') /\ m_incomp s' = false /\ mins_le (m_mins s') (m_mins s) /\
    incl (m_bps s') (m_bps s) /\ m_maybe s' = m_maybe s /\ m_novm s' = m_novm s.
Proof. intros h major c c' file how n paths rs out s M T T'. exact (run_less h major c c' file how M T T' n paths rs out s). Qed.
Print Assumptions c67_run_partial.

Definition cfg_lax (backports features exclusions : list string) (eval : bool) : config :=
  w_eval_annotations eval (w_backports backports (w_features features (w_exclusions_set exclusions (default_config 1)))).
Definition env_lax (c : config) : env := mkEnv c "a.py" (Some "") [] (h_selfdoc no_hooks) (h_dump no_hooks).
Definition verdict_lax (c : config) (v : pyval) : option mins :=
  match tour (env_lax c) v with
  | Ok s => match minimum_versions (env_lax c) s with Ok (m, _) => Some m | Err _ => None end
  | Err _ => None
  end.
Lemma lax_laxer bps bps' fs fs' xs xs' ev : incl bps bps' -> (forall b t, b = "typing_extensions" +++ t -> In b bps' -> In b bps) ->
  incl fs' fs -> incl xs xs' -> (forall x, In x xs' -> ~ In "("%char (list_ascii_of_string x)) ->
  laxer_reading (cfg_lax bps fs xs ev) (cfg_lax bps' fs' xs' ev).
Proof.
  intros B T F I N. split; [|split; [split; [exact B|exact T]|repeat split]].
  split; [exact I|]. split; [intros x K H; exfalso; exact (no_parens x (N x H) K)|]. split; [exact F|split; reflexivity].
Qed.

(** Source: [import argparse], [import ssl], [isinstance(a, int | str)]. *)
Example c67_case :
  laxer_reading (cfg_lax [] ["union-types"] [] false) (cfg_lax ["argparse"] [] ["ssl"] false) /\
  targets_given (cfg_lax [] ["union-types"] [] false) /\ targets_given (cfg_lax ["argparse"] [] ["ssl"] false) /\
  make_visitor no_hooks (cfg_lax [] ["union-types"] [] false) "a.py" "" [] = Ok (env_lax (cfg_lax [] ["union-types"] [] false)) /\
  verdict_lax (cfg_lax [] ["union-types"] [] false) tree_lax_all = Some (None, Some (3, 10)) /\
  verdict_lax (cfg_lax [] [] [] false) tree_lax_all = Some (Some (2, 7), Some (3, 2)) /\
  verdict_lax (cfg_lax ["argparse"] [] [] false) tree_lax_all = Some (Some (2, 6), Some (3, 1)) /\
  verdict_lax (cfg_lax ["argparse"] [] ["ssl"] false) tree_lax_all = Some (Some (2, 3), Some (3, 1)).
Proof.
  split; [|split; [discriminate|split; [discriminate|split; [reflexivity|repeat split; run]]]].
  apply lax_laxer.
  - intros x [].
  - intros b t -> [H|[]]. discriminate.
  - intros x [].
  - intros x [].
  - intros x [<-|[]] I. cbn in I. repeat (destruct I as [I|I]; [discriminate|]). exact I.
Qed.
Example c67_run_case : exists rs out s out' s',
  laxer_reading (cfg_lax [] [] [] false) (cfg_lax ["argparse"] [] [] false) /\
  analysed no_hooks 3 (cfg_lax [] [] [] false) files0 all_done fewer_paths rs /\ toured rs /\
  process no_hooks 3 (cfg_lax [] [] [] false) files0 all_done 2 fewer_paths = (out, Ok s) /\ m_incomp s = false /\ m_mins s = (Some (2, 7), Some (3, 2)) /\
  process no_hooks 3 (cfg_lax ["argparse"] [] [] false) files0 all_done 2 fewer_paths = (out', Ok s') /\ m_mins s' = (Some (2, 3), Some (3, 1)).
Proof.
  eexists _, _, _, _, _. split.
  { apply lax_laxer; [intros x []|intros b t -> [H|[]]; discriminate|intros x []|intros x []|intros x []]. }
  split; [repeat (constructor; [vm_compute; reflexivity|]); constructor|].
  split; [intros r [H|[H|[H|[]]]]; try discriminate; injection H as <-; discriminate|].
  split; [vm_compute; reflexivity|]. split; [reflexivity|]. split; [reflexivity|]. split; [vm_compute; reflexivity|reflexivity].
Qed.

(** Saying that the backport of typing_extensions is there raises the verdict: the module asks for nothing without. *)
Theorem c67_extensions_refuted : exists b v m m', verdict_lax (cfg_lax [] [] [] false) v = Some m /\ verdict_lax (cfg_lax [b] [] [] false) v = Some m' /\ ~ mins_le m' m.
Proof.
  eexists "typing_extensions", tree_lax_ext, _, _. split; [vm_compute; reflexivity|]. split; [vm_compute; reflexivity|].
  intros [_ H]. vm_compute in H. intuition discriminate.
Qed.
Print Assumptions c67_extensions_refuted.

(** Evaluating annotations can lower the verdict: a definition within one is seen only then. Source:
    [x: (ExceptionGroup := 1) = 2], then [raise ExceptionGroup]. *)
Theorem c67_annotations_refuted : exists v m m', verdict_lax (cfg_lax [] [] [] true) v = Some m /\ verdict_lax (cfg_lax [] [] [] false) v = Some m' /\ ~ mins_le m' m.
Proof.
  eexists tree_lax_eval, _, _. split; [vm_compute; reflexivity|]. split; [vm_compute; reflexivity|].
  intros [_ H]. vm_compute in H. intuition discriminate.
Qed.
Print Assumptions c67_annotations_refuted.
