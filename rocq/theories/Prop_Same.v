(** C34, C41: what the verdict of a source depends on, and what an excluded line takes out of it. *)
From Verif Require Import PyBase PyLemmas Utility RulesData Rules Config Formats Paths AstKinds Ast State Visitor MinVersions
  Parser Processor Spec_Base Spec_Visitor Spec_MinVersions Spec_Same Proof_MinVersions Proof_Same Proof_Verdict
  Prop_Visitor Prop_Main Trees Samples.

(** ** C34 *)
(** Everything known of one file, its printed text aside. *)
Theorem c34_file : forall sd d d' c c' path source node nov how,
  same_analysis c c' -> targets_given c -> targets_given c' -> path_ok c path = true -> path_ok c' path = true ->
  same_result (process_tree (mkHooks sd d) c path source node nov how) (process_tree (mkHooks sd d') c' path source node nov how).
Proof. intros sd d d' c c' path source node nov how S T T' P P'. apply file_same; auto. apply er_same. Qed.
Print Assumptions c34_file.

(** The summary of a run, or the exception it ends in. *)
Theorem c34_run_partial : forall sd d d' major c c' file how processes paths,
  same_reading c c' -> targets_given c -> targets_given c' ->
  (forall p, In p paths -> path_ok c p = true /\ path_ok c' p = true) ->
  (forall path source p, In path paths -> file path = FcSource source p -> c_format c = c_format c' \/ single_line p) ->
  snd (process (mkHooks sd d) major c file how processes paths) = snd (process (mkHooks sd d') major c' file how processes paths).
Proof. exact run_same_summary. Qed.
Print Assumptions c34_run_partial.

(** The API. *)
Theorem c34_detect_partial : forall sd d d' major c c' path source p,
  same_reading c c' -> targets_given c -> targets_given c' -> path_ok c (api_path path) = true -> path_ok c' (api_path path) = true ->
  c_format c = c_format c' \/ single_line p ->
  same_mins (api_detect (mkHooks sd d) major c path source p) (api_detect (mkHooks sd d') major c' path source p).
Proof. exact detect_same. Qed.
Print Assumptions c34_detect_partial.

(** A verbose parsable configuration with a dump and other targets, and two runs that it leaves alone. *)
Definition loud : config :=
  w_format FParsable (w_verbose 3 (w_print_visits true (w_show_tips false (w_targets [(true, (3, 4))] (default_config 4))))).
Example c34_case :
  same_reading cfg0 loud /\ targets_given loud /\ path_ok loud "a.py" = true /\ c_format cfg0 <> c_format loud /\
  fst (process no_hooks 3 cfg0 files0 all_done 1 ["a.py"; "b.py"]) <> fst (process no_hooks 3 loud files0 all_done 1 ["a.py"; "b.py"]) /\
  snd (process no_hooks 3 cfg0 files0 all_done 1 ["a.py"; "b.py"]) = snd (process no_hooks 3 loud files0 all_done 1 ["a.py"; "b.py"]).
Proof.
  repeat split; try (intros H; exact H); try discriminate; try reflexivity.
Qed.

(** What is missing: the text of a syntax error is examined after its newlines were escaped for the
    parsable format. Then [type], newline, [X = int] is no type alias any more. *)
Definition type_newline : parsed :=
  PErr (PeSyntax (mkSyn (Some ("type" +++ String (ascii_of_nat 10) "X = int")) "invalid syntax" "a.py" "1" "5")).
Theorem c34_refuted : exists c c' p,
  same_reading c c' /\ targets_given c /\ targets_given c' /\ path_ok c "a.py" = true /\ path_ok c' "a.py" = true /\
  api_detect no_hooks 3 c (Some "a.py") "" p = Ok (None, Some (3, 12)) /\
  api_detect no_hooks 3 c' (Some "a.py") "" p = Ok zero_mins.
Proof.
  exists cfg0, (w_format FParsable cfg0), type_newline.
  repeat split; try (intros H; exact H); try discriminate; try reflexivity.
Qed.
Print Assumptions c34_refuted.

(** ** C41 *)
(** An excluded statement, clause or expression changes nothing at all in the course of the analysis. *)
Theorem c41_statement : forall e v s, excluded (e_nolines e) (excludable ++ excludable_expr) v -> visit e v s = Ok s.
Proof. intros e v s H. exact (excluded_nop e v H s). Qed.
Print Assumptions c41_statement.

(** So a source with excluded statements has the verdict of the same source without them. *)
Theorem c41_erased_partial : forall h c path source node node' nov how,
  targets_given c -> path_ok c path = true -> erased nov node node' ->
  same_result (process_tree h c path source node nov how) (process_tree h c path source node' nov how).
Proof.
  intros [sd d] c path source node node' nov how T P E. apply file_same; auto. repeat split; auto.
Qed.
Print Assumptions c41_erased_partial.

Ltac elem := vm_compute; repeat (first [left; reflexivity | right]).
Ltac is_excluded k := exists k; split; [solve [elem]|split; [reflexivity|solve [elem]]].
Ltac drop :=
  first [ left; first [is_excluded KImport|is_excluded KWith]
        | right; split; [reflexivity|eexists; split; [reflexivity|is_excluded KCall]] ].
Ltac erase :=
  lazymatch goal with
  | |- erased _ ?v ?v => apply er_same
  | |- erased _ _ _ => apply er_node; [solve [elem]|erase]
  | |- erased_fields _ _ [] [] => apply ef_nil
  | |- erased_fields _ _ (?x :: _) (?x :: _) => apply ef_same; erase
  | |- erased_fields _ _ _ _ => apply ef_block; [solve [elem]|erase|erase]
  | |- erased_block _ _ [] [] => apply eb_nil
  | |- erased_block ?n _ _ _ => first [apply (eb_drop n); [drop|erase] | apply eb_keep; [erase|erase]]
  end.
(** Imports, a [with] and a call are dropped at the top, in an [if] and in a method. *)
Example c41_case : erased [1; 3; 7; 9] tree_novm_block tree_novm_block_erased /\
  tree_novm_block <> tree_novm_block_erased /\ targets_given cfg0 /\ path_ok cfg0 "a.py" = true /\
  (match process_tree no_hooks cfg0 "a.py" text_novm_block tree_novm_block [1; 3; 7; 9] EndDone with
   | Ok r => r_mins r = MVers (Some (2, 6), Some (3, 0)) | Err _ => False end) /\
  (match process_tree no_hooks cfg0 "a.py" text_novm_block tree_novm_block [] EndDone with
   | Ok r => r_mins r = MVers (None, Some (3, 4)) | Err _ => False end).
Proof.
  split; [cbv [tree_novm_block tree_novm_block_erased]; erase|].
  split; [discriminate|]. split; [discriminate|]. split; [reflexivity|]. split; vm_compute; reflexivity.
Qed.

(** What is missing: definitions that stand directly in a class. The code looks at their bodies and
    arguments before it comes to the test of the line. *)
Definition body_of (v : pyval) : list pyval := items "body" v.
Definition in_class (body : list pyval) : pyval :=
  VNode KModule 1%N None [("body", VList [VNode KClassDef 2%N (Some (1, 0))
    [("name", VStr "A"); ("bases", VList []); ("keywords", VList []); ("body", VList body); ("decorator_list", VList [])]]);
    ("type_ignores", VList [])].
Definition verdict_of (nov : list Z) (v : pyval) : option rmins :=
  match process_tree no_hooks cfg0 "a.py" text_novm_method v nov EndDone with Ok r => Some (r_mins r) | Err _ => None end.
Theorem c41_refuted : exists method rest, tree_novm_method = in_class (method :: rest) /\ excluded [2] excludable method /\
  verdict_of [2] (in_class (method :: rest)) = Some (MVers (Some (2, 7), Some (3, 2))) /\
  verdict_of [2] (in_class rest) = Some (MVers zero_mins).
Proof.
  exists (hd VNone (body_of (hd VNone (body_of tree_novm_method)))), (tl (body_of (hd VNone (body_of tree_novm_method)))).
  split; [reflexivity|]. split; [is_excluded KFunctionDef|]. split; vm_compute; reflexivity.
Qed.
Print Assumptions c41_refuted.
