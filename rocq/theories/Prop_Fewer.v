(** C66: excluding more never adds a finding and never raises a verdict. The theorems named _partial are about
    exclusions other than of keyword arguments; of those it is false, see c66_keyword_refuted. *)
From Verif Require Import PyBase Utility RulesData Rules Config AstKinds Ast State Visitor MinVersions Parser Processor
  Spec_Base Spec_Visitor Spec_MinVersions Spec_Main Spec_Fewer Proof_Less Trees Samples Prop_Visitor Prop_Main.

(** What is found with more exclusions was found with fewer; what no exclusion is about is found as before. *)
Theorem c66_records_partial : forall h c c' path source nov e e' v s,
  more_excluded c c' -> targets_given c -> targets_given c' ->
  make_visitor h c path source nov = Ok e -> make_visitor h c' path source nov = Ok e' -> tour e v = Ok s ->
  exists s', tour e' v = Ok s' /\ records_less [FLongV2] s' s.
Proof. intros h c c' path source nov e e' v s M T T'. exact (tour_less h h c c' path source nov e e' v s M T T' eq_refl). Qed.
Print Assumptions c66_records_partial.

(** A visit fails with more exclusions exactly when it fails with fewer. *)
Theorem c66_fails_alike_partial : forall h c c' path source nov e e' v x,
  more_excluded c c' -> targets_given c -> targets_given c' ->
  make_visitor h c path source nov = Ok e -> make_visitor h c' path source nov = Ok e' -> tour e v = Err x -> tour e' v = Err x.
Proof. intros h c c' path source nov e e' v x M T T'. exact (tour_fails h h c c' path source nov e e' v x M T T' eq_refl). Qed.
Print Assumptions c66_fails_alike_partial.

(** A source that has a verdict keeps having one, no stricter than it was. *)
Theorem c66_detect_partial : forall h major c c' path source p m, more_excluded_reading c c' -> targets_given c -> targets_given c' ->
  api_detect h major c path source p = Ok m -> exists m', api_detect h major c' path source p = Ok m' /\ mins_le m' m.
Proof. intros h major c c' path source p m M. exact (detect_less h major c c' path source p m (more_laxer c c' M)). Qed.
Print Assumptions c66_detect_partial.

(** And so does a run over any number of files. *)
Theorem c66_run_partial : forall h major c c' file how n paths rs out s, more_excluded_reading c c' -> targets_given c -> targets_given c' ->
  analysed h major c file how paths rs -> toured rs -> 1 <= n -> process h major c file how n paths = (out, Ok s) -> m_incomp s = false ->
  exists out' s', process h major c' file how n paths = (out', Ok s') /\ m_incomp s' = false /\ mins_le (m_mins s') (m_mins s) /\
    incl (m_bps s') (m_bps s) /\ m_maybe s' = m_maybe s /\ m_novm s' = m_novm s.
Proof. intros h major c c' file how n paths rs out s M T T'. exact (run_less h major c c' file how (more_laxer c c' M) T T' n paths rs out s). Qed.
Print Assumptions c66_run_partial.

Definition cfg_without (l : list string) : config := w_exclusions_set l (default_config 1).
Lemma no_parens x : ~ In "("%char (list_ascii_of_string x) -> ~ keyword_exclusion x.
Proof.
  intros N (f & k & ->). apply N. clear N. induction f as [|a f IH]; [left; reflexivity|right; exact IH].
Qed.
Lemma without_more l l' : incl l l' -> (forall x, In x l' -> ~ In "("%char (list_ascii_of_string x)) ->
  more_excluded_reading (cfg_without l) (cfg_without l').
Proof.
  intros I N. split; [|repeat split]. split; [|split; [intros x H; exact H|reflexivity]].
  split; [exact I|]. split; [intros x K H; exfalso; exact (no_parens x (N x H) K)|]. split; [intros x H; exact H|split; reflexivity].
Qed.

(** A module, a function used as a decorator, an encoding and an error handler. *)
Definition env_fewer (l : list string) : env := mkEnv (cfg_without l) "a.py" (Some "") [] (h_selfdoc no_hooks) (h_dump no_hooks).
Definition verdict_without (l : list string) (v : pyval) : option mins :=
  match tour (env_fewer l) v with
  | Ok s => match minimum_versions (env_fewer l) s with Ok (m, _) => Some m | Err _ => None end
  | Err _ => None
  end.
Definition fewer_names : list string := ["argparse"; "functools.lru_cache"; "ce=rot13"; "ceh=surrogateescape"].
Example c66_case : more_excluded_reading (cfg_without []) (cfg_without fewer_names) /\
  targets_given (cfg_without []) /\ targets_given (cfg_without fewer_names) /\
  make_visitor no_hooks (cfg_without fewer_names) "a.py" "" [] = Ok (env_fewer fewer_names) /\
  (exists s, tour (env_fewer []) tree_fewer_all = Ok s /\ s_modules s = ["argparse"; "codecs"; "functools"; "functools.lru_cache"; "functools.cmp_to_key"; "codecs.encode"] /\
     s_ufds s = ["functools.lru_cache"] /\ s_cencs s = [VStr "rot13"] /\ s_cehs s = [VStr "surrogateescape"]) /\
  (exists s, tour (env_fewer fewer_names) tree_fewer_all = Ok s /\ s_modules s = ["codecs"; "functools"; "functools.cmp_to_key"; "codecs.encode"] /\
     s_ufds s = [] /\ s_cencs s = [] /\ s_cehs s = []) /\
  verdict_without [] tree_fewer_all = Some (None, Some (3, 8)) /\
  verdict_without fewer_names tree_fewer_all = Some (Some (2, 7), Some (3, 2)).
Proof.
  split; [|split; [|split; [|split; [|split; [|split; [|split]]]]]].
  - apply without_more; [intros x []|]. cbn. intros x H I. repeat (destruct H as [<-|H]; [cbn in I; repeat (destruct I as [I|I]; [discriminate|]); exact I|]). exact H.
  - discriminate.
  - discriminate.
  - reflexivity.
  - ok. repeat split; run.
  - ok. repeat split; run.
  - run.
  - run.
Qed.
Definition fewer_paths : list string := ["a.py"; "bin"; "n.py"].
Example c66_run_case : exists rs out s out' s', more_excluded_reading (cfg_without []) (cfg_without ["argparse"]) /\
  analysed no_hooks 3 (cfg_without []) files0 all_done fewer_paths rs /\ toured rs /\
  process no_hooks 3 (cfg_without []) files0 all_done 2 fewer_paths = (out, Ok s) /\ m_incomp s = false /\ m_mins s = (Some (2, 7), Some (3, 2)) /\
  process no_hooks 3 (cfg_without ["argparse"]) files0 all_done 2 fewer_paths = (out', Ok s') /\ m_mins s' = zero_mins.
Proof.
  eexists _, _, _, _, _. split; [apply without_more; [intros x []|]|].
  { cbn. intros x H I. repeat (destruct H as [<-|H]; [cbn in I; repeat (destruct I as [I|I]; [discriminate|]); exact I|]). exact H. }
  split; [repeat (constructor; [vm_compute; reflexivity|]); constructor|].
  split; [intros r [H|[H|[H|[]]]]; try discriminate; injection H as <-; discriminate|].
  split; [vm_compute; reflexivity|]. split; [reflexivity|]. split; [reflexivity|]. split; [vm_compute; reflexivity|reflexivity].
Qed.

(** Excluding a keyword argument can raise the verdict: its value is not looked at any more, so what is
    defined there is no longer known to be the program's own. Source: [foo(k=(long := 1))], then [long]. *)
Theorem c66_keyword_refuted : exists x v m m', verdict_without [] v = Some m /\ verdict_without [x] v = Some m' /\ ~ mins_le m' m.
Proof.
  exists "foo(k)", tree_fewer_kw, (None, Some (3, 8)), (Some (2, 0), None). split; [vm_compute; reflexivity|]. split; [vm_compute; reflexivity|].
  intros [_ H]. exact H.
Qed.
Print Assumptions c66_keyword_refuted.

(** Excluding a module also takes away what is found in it, though that is not excluded. Source:
    [import importlib], then [importlib.metadata]. *)
Theorem c66_other_refuted : exists x y v s s' m, ~ In y [x] /\ tour (env_fewer []) v = Ok s /\ tour (env_fewer [x]) v = Ok s' /\
  In y (s_modules s) /\ ~ In y (s_modules s') /\ mod_req [] y = Some m /\
  verdict_without [] v = Some (None, Some (3, 8)) /\ verdict_without [x] v = Some zero_mins.
Proof.
  exists "importlib", "importlib.metadata", tree_fewer_mod, (ended (tour (env_fewer []) tree_fewer_mod)),
    (ended (tour (env_fewer ["importlib"]) tree_fewer_mod)), (None, Some (3, 8)).
  split; [intros [H|[]]; discriminate|]. split; [run|]. split; [run|]. split; [vm_compute; auto|]. split; [vm_compute; intuition discriminate|].
  split; [run|]. split; run.
Qed.
Print Assumptions c66_other_refuted.
