(** C85: statements that need nothing of a Python version do not matter. *)
From Verif Require Import PyBase PyLemmas Utility RulesData Rules Config Formats Paths AstKinds Ast State Visitor MinVersions Fstring
  Parser Processor Spec_Base Spec_Parser Spec_Visitor Spec_Seen Spec_MinVersions Spec_Same Spec_Layout Spec_Idle
  Proof_Tour Proof_Verdict Proof_Shapes Proof_Same Proof_Changed Proof_Idle Samples_Idle Prop_Visitor Prop_Layout.

(** Docstrings, [pass], [break], numbers and so on may be written or left out, in any block at any depth: the same
    verdict, the same hints, the same excluded lines, or the same failure. *)
Theorem c85_tree : forall sd d d' c path source v v' nov how,
  targets_given c -> path_ok c path = true -> padded v v' ->
  same_result (process_tree (mkHooks sd d) c path source v nov how) (process_tree (mkHooks sd d') c path source v' nov how).
Proof.
  intros sd d d' c path source v v' nov how T P E.
  apply (file_changed (fun _ => True) padded (fun c path src nl sd d d' v v' _ => visited_padded c path src nl sd d d' v v')); auto.
Qed.
Print Assumptions c85_tree.

(** The rest of the source moves when lines are added or removed. *)
Theorem c85_layout : forall d d' c path src src' v v' nov nov' how f,
  targets_given c -> path_ok c path = true -> padded v v' ->
  relaid (mkEnv c path (Some src) nov selfdoc d) (mkEnv c path (Some src') nov' selfdoc d') f v' ->
  laid_result (process_tree (mkHooks selfdoc d) c path src v nov how)
              (process_tree (mkHooks selfdoc d') c path src' (relay f v') nov' how).
Proof.
  intros d d' c path src src' v v' nov nov' how f T P E R.
  apply (file_changed_laid (fun _ => True) padded (fun c path src nl sd d d' v v' _ => visited_padded c path src nl sd d d' v v')); auto.
Qed.
Print Assumptions c85_layout.

(** The API. *)
Theorem c85_detect : forall d d' major c path src src' v v' nov nov' p p' f,
  targets_given c -> path_ok c (api_path path) = true -> padded v v' ->
  parser_detect major c p = DTree v nov -> parser_detect major c p' = DTree (relay f v') nov' ->
  relaid (mkEnv c (api_path path) (Some src) nov selfdoc d) (mkEnv c (api_path path) (Some src') nov' selfdoc d') f v' ->
  same_mins (api_detect (mkHooks selfdoc d) major c path src p) (api_detect (mkHooks selfdoc d') major c path src' p').
Proof.
  intros d d' major c path src src' v v' nov nov' p p' f T P E D D' R.
  apply (detect_changed_laid (fun _ => True) padded (fun c path src nl sd d d' v v' _ => visited_padded c path src nl sd d d' v v')) with v v' nov nov' f; auto.
Qed.
Print Assumptions c85_detect.

(** Runs: the same summary, whichever of the files were changed. *)
Theorem c85_run : forall d major c file file' how processes paths,
  targets_given c -> (forall p, In p paths -> path_ok c p = true) ->
  (forall p, In p paths -> changed_file padded c p d (file p) (file' p)) ->
  snd (process (mkHooks selfdoc d) major c file how processes paths) = snd (process (mkHooks selfdoc d) major c file' how processes paths).
Proof.
  intros d major c file file' how processes paths T P F.
  apply (run_changed (fun _ => True) padded (fun c path src nl sd d d' v v' _ => visited_padded c path src nl sd d d' v v')); auto.
Qed.
Print Assumptions c85_run.

(** Source: docstrings of a module, a class and a method, [pass], [assert 1 < -2], [break], [global z] and [None],
    [while 0 or (1, 'a'): break], around imports, one of which is excluded, and an f-string; the same without these, but
    with other texts where Python wants a statement. *)
Definition idle_nodeb (n : pyval) : bool :=
  existsb (fun k => is_kind k n) (idle_statements ++ idle_expressions) ||
  (is_kind KConstant n && match attr "value" n with VNone | VInt _ | VFloat _ | VComplex _ | VStr _ => true | _ => false end && properb n).
Definition idleb (v : pyval) : bool := existsb (fun k => is_kind k v) idle_statements && forallb idle_nodeb (walk v).
Lemma idleb_ok v : idleb v = true -> idle v.
Proof.
  intros H. apply andb_true_iff in H as [H W]. split.
  - apply existsb_exists in H as (k & I & K). exists k. split; [exact I|exact K].
  - intros n B. rewrite forallb_forall in W. apply walk_below in B. specialize (W n B). apply orb_true_iff in W as [W|W].
    + left. apply existsb_exists in W as (k & I & K). exists k. split; [exact I|exact K].
    + right. apply andb_true_iff in W as [W Pr]. apply andb_true_iff in W as [W V]. split; [exact W|]. split.
      * unfold idle_value. destruct (attr "value" n); try discriminate; exact I.
      * apply properb_ok in Pr. exact (proj1 Pr).
Qed.
Ltac elem := vm_compute; repeat (first [left; reflexivity | right]).
Ltac pad :=
  lazymatch goal with
  | |- padded ?v ?v => apply pd_same
  | |- padded (VNode ?k ?u ?p _) (VNode ?k ?u ?p _) => apply pd_node; [solve [elem]|pad]
  | |- padded_fields [] [] => apply pf_nil
  | |- padded_fields (?x :: _) (?x :: _) => apply pf_same; pad
  | |- padded_fields _ _ => apply pf_block; [solve [elem]|pad|pad]
  | |- padded_block [] [] => apply pb_nil
  | |- padded_block _ _ =>
      first [apply pb_less; [apply idleb_ok; vm_compute; reflexivity|pad] | apply pb_keep; [pad|pad] | apply pb_more; [apply idleb_ok; vm_compute; reflexivity|pad]]
  end.
Definition tree_less : pyval := Eval vm_compute in relay (elsewhere tree_idle) tree_bare.
Definition idle_files (src : string) (v : pyval) (toks : list token) (p : string) : fcontent := FcSource src (PTree v (inr toks)).
Example c85_case :
  let c := default_config 1 in let f := elsewhere tree_bare in
  targets_given c /\ path_ok c "a.py" = true /\ padded tree_idle tree_less /\ relay f tree_less = tree_bare /\ tree_less <> tree_idle /\
  changed_file padded c "a.py" no_dump (idle_files src_idle tree_idle tokens_idle "a.py") (idle_files src_bare tree_bare tokens_bare "a.py") /\
  mins_of (result_of src_idle (PTree tree_idle (inr tokens_idle))) = Some (None, Some (3, 6)) /\
  lines_of (result_of src_idle (PTree tree_idle (inr tokens_idle))) = [2] /\
  mins_of (result_of src_bare (PTree tree_bare (inr tokens_bare))) = Some (None, Some (3, 6)) /\
  lines_of (result_of src_bare (PTree tree_bare (inr tokens_bare))) = [1].
Proof.
  cbv zeta.
  assert (P : padded tree_idle tree_less) by (cbv [tree_idle tree_less]; pad).
  assert (R : relay (elsewhere tree_bare) tree_less = tree_bare) by ok.
  split; [discriminate|]. split; [ok|]. split; [exact P|]. split; [exact R|]. split; [discriminate|]. split.
  { unfold idle_files. rewrite <- R at 1. apply chf_changed; [exact P| |].
    - apply stays_ok; [ok|ok|]. intros n B W. exfalso.
      assert (F : forallb (fun n => negb (is_kind KWith n || is_kind KAsyncWith n)) (walk tree_less) = true) by ok.
      rewrite forallb_forall in F. apply walk_below in B. specialize (F n B).
      destruct W as [W|W]; apply isa_kind in W; rewrite W in F; [discriminate|rewrite orb_true_r in F; discriminate].
    - split; intros H; vm_compute in H; discriminate. }
  split; [ok|]. split; [ok|]. split; ok.
Qed.

(** Statements that look as idle but are not: bytes, [...] and [True] have requirements of their own. *)
Example c85_not_idle :
  let text := fun x => VNode KModule 1%N None [("body", VList [VNode KExpr 2%N (Some (1, 0)) [("value", VNode KConstant 3%N (Some (1, 0)) [("value", x)])]]); ("type_ignores", VList [])] in
  map (fun x => mins_of (result_of "" (PTree (text x) (inr [])))) [VStr "a"; VBytes "a"; VEllipsis; VBool true] =
  [Some (Some (0, 0), Some (0, 0)); Some (Some (2, 6), Some (3, 0)); Some (None, Some (3, 0)); Some (Some (2, 3), Some (3, 0))].
Proof. ok. Qed.
