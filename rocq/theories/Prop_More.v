(** C75: more code and more files never lower what is required. *)
From Verif Require Import PyBase PyLemmas Utility RulesData Rules Config Formats Paths AstKinds Ast State Visitor MinVersions
  Parser Processor Spec_Base Spec_Utility Spec_Seen Spec_Visitor Spec_MinVersions Spec_Main Spec_Same Spec_Fewer Spec_More Proof_MinVersions
  Proof_More Samples Trees Prop_Visitor Prop_Main Prop_Fewer Prop_Laxer.

(** Code with code put behind it can be visited only if it can be visited alone; all that was found in it is found, except for
    modules and members with names that the code behind it defines and that it says are user-defined. *)
Theorem c75_found : forall e u u' l r s', targets_given (e_cfg e) -> tour e (source_tree u' (l ++ r)) = Ok s' ->
  exists s, tour e (source_tree u l) = Ok s /\
    incl (s_kwargs s) (s_kwargs s') /\ incl (s_ufds s) (s_ufds s') /\ incl (s_cehs s) (s_cehs s') /\ incl (s_cencs s) (s_cencs s') /\
    incl (s_strftimes s) (s_strftimes s') /\ incl (s_bytesdirs s) (s_bytesdirs s') /\ incl (s_typecodes s) (s_typecodes s') /\
    incl (s_flags s) (s_flags s') /\
    (forall y, In y (s_modules s) -> In y (s_modules s') \/ (In y (s_user_defs s') /\ defined_in r y)) /\
    (forall y, In y (s_members s) -> In y (s_members s') \/ (In y (s_user_defs s') /\ defined_in r y)).
Proof. exact tour_append. Qed.
Print Assumptions c75_found.

(** So if it defines none of them, the code alone has a verdict too, and it requires no more. *)
Theorem c75_verdict : forall e u u' l r s s' m' t', targets_given (e_cfg e) ->
  tour e (source_tree u l) = Ok s -> tour e (source_tree u' (l ++ r)) = Ok s' ->
  (forall y, found_name s y -> ~ defined_in r y) \/ (forall y, found_name s y -> ~ In y (s_user_defs s')) ->
  minimum_versions e s' = Ok (m', t') ->
  records_within s s' /\ exists m t, minimum_versions e s = Ok (m, t) /\ mins_le m m'.
Proof.
  intros e u u' l r s s' m' t' T E E' N M. destruct (tour_append e u u' l r s' T E') as (s0 & E0 & A1 & A2 & A3 & A4 & A5 & A6 & A7 & A8 & B1 & B2).
  rewrite E in E0. injection E0 as <-.
  assert (W : records_within s s').
  { split; [intros y I; destruct (B1 y I) as [J|[J D]]; [exact J|exfalso]|].
    - destruct N as [N|N]; exact (N y (or_introl I) ltac:(assumption)).
    - split; [intros y I; destruct (B2 y I) as [J|[J D]]; [exact J|exfalso]|auto 20].
      destruct N as [N|N]; exact (N y (or_intror I) ltac:(assumption)). }
  split; [exact W|]. exact (versions_within e s s' m' t' T W M).
Qed.
Print Assumptions c75_verdict.

(** Runs: with more files, and any number of processes, the verdict requires no less and no hint is lost. *)
Theorem c75_files : forall h major c file how n n' paths paths' rs rs',
  analysed h major c file how paths rs -> analysed h major c file how paths' rs' -> toured rs' -> incl paths paths' -> 1 <= n -> 1 <= n' ->
  combinable c rs' ->
  exists out s out' s', process h major c file how n paths = (out, Ok s) /\ process h major c file how n' paths' = (out', Ok s') /\ says_no_less s s'.
Proof. exact files_more. Qed.
Print Assumptions c75_files.

(** Source: [import argparse], [from functools import lru_cache], [print(x, end='')], then [def lru(y): z = yield y],
    [d.strftime('%G')] and [(n := 1)]. *)
Definition body_of (v : pyval) : list pyval := as_list (attr "body" v).
Definition code_env : env := env_lax (cfg_lax [] [] [] false).
Definition verdict_of (v : pyval) : option mins := verdict_lax (cfg_lax [] [] [] false) v.
Ltac none_defined := match goal with |- forall y, found_name ?s y -> ~ In y ?d =>
  let a := eval vm_compute in (s_modules s) in let b := eval vm_compute in (s_members s) in let d' := eval vm_compute in d in
  intros y F; unfold found_name in F;
  replace (s_modules s) with a in F by (vm_compute; reflexivity); replace (s_members s) with b in F by (vm_compute; reflexivity);
  replace d with d' by (vm_compute; reflexivity); cbn in F |- *; intuition (subst; discriminate) end.
Example c75_case :
  let l := firstn 3 (body_of tree_more_code) in let r := skipn 3 (body_of tree_more_code) in
  let s := ended (tour code_env (source_tree 1 l)) in let s' := ended (tour code_env (source_tree 1 (l ++ r))) in
  targets_given (e_cfg code_env) /\ source_tree 1 (l ++ r) = tree_more_code /\ r <> [] /\
  tour code_env (source_tree 1 l) = Ok s /\ tour code_env (source_tree 1 (l ++ r)) = Ok s' /\
  (forall y, found_name s y -> ~ In y (s_user_defs s')) /\ s_user_defs s' = ["lru"; "n"] /\
  verdict_of (source_tree 1 l) = Some (None, Some (3, 2)) /\ verdict_of (source_tree 1 (l ++ r)) = Some (None, Some (3, 8)).
Proof.
  cbv zeta. split; [discriminate|]. split; [run|]. split; [vm_compute; discriminate|]. split; [run|]. split; [run|]. split; [none_defined|].
  split; [run|]. split; run.
Qed.

(** A name that is defined later lowers it. Source: [import argparse], [from enum import Enum], then [argparse = Enum]. *)
Theorem c75_verdict_refuted : exists e l r s s' m m' t t', targets_given (e_cfg e) /\
  tour e (source_tree 1 l) = Ok s /\ tour e (source_tree 1 (l ++ r)) = Ok s' /\
  minimum_versions e s = Ok (m, t) /\ minimum_versions e s' = Ok (m', t') /\ ~ mins_le m m'.
Proof.
  exists code_env, (firstn 1 (body_of tree_more_names)), (skipn 2 (body_of tree_more_names)),
    (ended (tour code_env (source_tree 1 (firstn 1 (body_of tree_more_names))))),
    (ended (tour code_env (source_tree 1 (firstn 1 (body_of tree_more_names) ++ skipn 2 (body_of tree_more_names))))).
  eexists _, _, _, _. split; [discriminate|]. split; [run|]. split; [run|]. split; [vm_compute; reflexivity|]. split; [vm_compute; reflexivity|].
  intros [H _]. vm_compute in H. intuition discriminate.
Qed.
Print Assumptions c75_verdict_refuted.

(** Files that clash are taken in the order of their names, so a file put before others can make the run forget what they require.
    Sources: [import ConfigParser] and [import configparser]. *)
Theorem c75_files_refuted : exists paths paths' rs rs' out s out' s',
  analysed no_hooks 3 cfg0 files0 all_done paths rs /\ analysed no_hooks 3 cfg0 files0 all_done paths' rs' /\ toured rs' /\ incl paths paths' /\
  process no_hooks 3 cfg0 files0 all_done 1 paths = (out, Ok s) /\ process no_hooks 3 cfg0 files0 all_done 1 paths' = (out', Ok s') /\
  ~ mins_le (m_mins s) (m_mins s').
Proof.
  exists ["three.py"], ["two.py"; "three.py"], (results cfg0 ["three.py"]), (results cfg0 ["two.py"; "three.py"]). do 4 eexists.
  split; [analyse|]. split; [analyse|]. split.
  { intros r I. vm_compute in I. repeat (destruct I as [I|I]; [try discriminate; injection I as <-; discriminate|]). destruct I. }
  split; [intros x [<-|[]]; right; left; reflexivity|].
  split; [vm_compute; reflexivity|]. split; [vm_compute; reflexivity|]. intros [H _]. exact H.
Qed.
Print Assumptions c75_files_refuted.

Example c75_files_case : let few := ["n.py"; "a.py"] in let more := ["a.py"; "b.py"; "bin"; "n.py"] in
  analysed no_hooks 3 cfg0 files0 all_done few (results cfg0 few) /\ analysed no_hooks 3 cfg0 files0 all_done more (results cfg0 more) /\
  toured (results cfg0 more) /\ incl few more /\ combinable cfg0 (results cfg0 more) /\
  (exists s, process no_hooks 3 cfg0 files0 all_done 2 few = ("", Ok s) /\ m_mins s = (Some (2, 7), Some (3, 2))) /\
  (exists s, process no_hooks 3 cfg0 files0 all_done 4 more = ("", Ok s) /\ m_mins s = (None, Some (3, 8))).
Proof.
  cbv zeta. split; [analyse|]. split; [analyse|]. split.
  { intros r I. vm_compute in I. repeat (destruct I as [I|I]; [try discriminate; injection I as <-; discriminate|]). destruct I. }
  split; [intros x I; cbn in I |- *; intuition|]. split.
  { right. intros a b (r & I & E) (r' & I' & E'). vm_compute in I, I'. unfold clashing, py2_only, py3_only.
    intuition; subst; try discriminate;
    repeat match goal with H : Some _ = Some _ |- _ => injection H as <- end; cbn in E, E'; injection E as <-; injection E' as <-; cbn in *; discriminate. }
  split; eexists; (split; [vm_compute; reflexivity|reflexivity]).
Qed.
