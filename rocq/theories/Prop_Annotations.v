(** C86: annotations that are not evaluated do not matter. *)
From Verif Require Import PyBase PyLemmas Utility RulesData Rules Config Formats Paths AstKinds Ast State Visitor MinVersions Fstring
  Parser Processor Spec_Base Spec_Parser Spec_Visitor Spec_Seen Spec_MinVersions Spec_Same Spec_Layout Spec_Idle Spec_Annotations
  Proof_Tour Proof_Verdict Proof_Shapes Proof_Same Proof_Changed Proof_Annotations Samples_Annotations Prop_Visitor Prop_Layout.

(** Without evaluation of annotations, it does not matter of which type a variable is said to be, or what a function is
    said to return: the same verdict, the same hints, or the same failure. Missing: annotations of arguments, and what
    stands directly in a class, see below. That there is an annotation, and whether it is [Final] or [Literal], counts by
    itself. *)
Theorem c86_tree_partial : forall sd d d' c path source v v' nov how, c_eval_annotations c = false ->
  targets_given c -> path_ok c path = true -> reannotated false v v' ->
  same_result (process_tree (mkHooks sd d) c path source v nov how) (process_tree (mkHooks sd d') c path source v' nov how).
Proof.
  intros sd d d' c path source v v' nov how O T P E.
  apply (file_changed (fun c => c_eval_annotations c = false) (reannotated false) visited_reannotated); auto.
Qed.
Print Assumptions c86_tree_partial.

(** The rest of the source moves when annotations are longer or shorter. *)
Theorem c86_layout_partial : forall d d' c path src src' v v' nov nov' how f, c_eval_annotations c = false ->
  targets_given c -> path_ok c path = true -> reannotated false v v' ->
  relaid (mkEnv c path (Some src) nov selfdoc d) (mkEnv c path (Some src') nov' selfdoc d') f v' ->
  laid_result (process_tree (mkHooks selfdoc d) c path src v nov how)
              (process_tree (mkHooks selfdoc d') c path src' (relay f v') nov' how).
Proof.
  intros d d' c path src src' v v' nov nov' how f O T P E R.
  apply (file_changed_laid (fun c => c_eval_annotations c = false) (reannotated false) visited_reannotated); auto.
Qed.
Print Assumptions c86_layout_partial.

(** The API. *)
Theorem c86_detect_partial : forall d d' major c path src src' v v' nov nov' p p' f, c_eval_annotations c = false ->
  targets_given c -> path_ok c (api_path path) = true -> reannotated false v v' ->
  parser_detect major c p = DTree v nov -> parser_detect major c p' = DTree (relay f v') nov' ->
  relaid (mkEnv c (api_path path) (Some src) nov selfdoc d) (mkEnv c (api_path path) (Some src') nov' selfdoc d') f v' ->
  same_mins (api_detect (mkHooks selfdoc d) major c path src p) (api_detect (mkHooks selfdoc d') major c path src' p').
Proof.
  intros d d' major c path src src' v v' nov nov' p p' f O T P E D D' R.
  apply (detect_changed_laid (fun c => c_eval_annotations c = false) (reannotated false) visited_reannotated) with v v' nov nov' f; auto.
Qed.
Print Assumptions c86_detect_partial.

(** Runs: the same summary, whichever of the files were changed. *)
Theorem c86_run_partial : forall d major c file file' how processes paths, c_eval_annotations c = false ->
  targets_given c -> (forall p, In p paths -> path_ok c p = true) ->
  (forall p, In p paths -> changed_file (reannotated false) c p d (file p) (file' p)) ->
  snd (process (mkHooks selfdoc d) major c file how processes paths) = snd (process (mkHooks selfdoc d) major c file' how processes paths).
Proof.
  intros d major c file file' how processes paths O T P F.
  apply (run_changed (fun c => c_eval_annotations c = false) (reannotated false) visited_reannotated); auto.
Qed.
Print Assumptions c86_run_partial.

(** Source: annotated variables, one of them excluded and one [Final], and functions, in a function, in a method and below
    [if]; then with [typing.Self] (3.11) and [dict[..]] (3.9) in the annotations. *)
Lemma special_ok a a' : ann_is "Final" a = ann_is "Final" a' -> ann_is "Literal" a = ann_is "Literal" a' -> same_special a a'.
Proof. intros F L. unfold same_special. rewrite <- !ann_is_names by discriminate. rewrite F, L. split; reflexivity. Qed.
Ltac elem := vm_compute; repeat (first [left; reflexivity | right]).
Ltac ann :=
  lazymatch goal with
  | |- reannotated _ ?v ?v => apply ra_same
  | |- reannotated _ (VNode KAnnAssign ?u ?p ?fs) (VNode KAnnAssign ?u ?p ?fs') =>
      let a := eval vm_compute in (fld "annotation" fs') in
      change (reannotated false (VNode KAnnAssign u p fs) (VNode KAnnAssign u p (with_field "annotation" a fs)));
      apply ra_variable, special_ok; vm_compute; reflexivity
  | |- reannotated _ (VNode ?k ?u ?p ?fs) (VNode ?k ?u ?p ?fs') =>
      let r := eval vm_compute in (fld "returns" fs) in let r' := eval vm_compute in (fld "returns" fs') in
      tryif constr_eq r r' then (apply ra_node; [solve [elem]|];
        match goal with |- reannotated_fields ?b ?x ?y => let b' := eval vm_compute in b in change (reannotated_fields b' x y) end; ann)
      else (let w := eval vm_compute in (with_field "returns" r' fs) in
              apply (ra_then _ _ (VNode k u p w));
              [ change (reannotated false (VNode k u p fs) (VNode k u p (with_field "returns" r' fs)));
                apply ra_returns; [solve [auto]|vm_compute; discriminate|discriminate]
              | ann ])
  | |- reannotated_fields _ [] [] => apply rf_nil
  | |- reannotated_fields _ (?x :: _) (?x :: _) => apply rf_same; ann
  | |- reannotated_fields _ _ _ => apply rf_block; [solve [elem]|ann|ann]
  | |- reannotated_block _ [] [] => apply rb_nil
  | |- reannotated_block _ _ _ => apply rb_keep; [ann|ann]
  end.
Definition tree_other : pyval := Eval vm_compute in relay (elsewhere tree_annotated) tree_annotated_new.
Example c86_case :
  let c := default_config 1 in let f := elsewhere tree_annotated_new in
  c_eval_annotations c = false /\ targets_given c /\ path_ok c "a.py" = true /\
  reannotated false tree_annotated tree_other /\ relay f tree_other = tree_annotated_new /\ blank tree_other = blank tree_annotated /\
  tree_other <> tree_annotated /\
  changed_file (reannotated false) c "a.py" no_dump (FcSource src_annotated (PTree tree_annotated (inr tokens_annotated)))
    (FcSource src_annotated_new (PTree tree_annotated_new (inr tokens_annotated_new))) /\
  mins_of (result_of src_annotated (PTree tree_annotated (inr tokens_annotated))) = Some (None, Some (3, 8)) /\
  mins_of (result_of src_annotated_new (PTree tree_annotated_new (inr tokens_annotated_new))) = Some (None, Some (3, 8)).
Proof.
  cbv zeta.
  assert (P : reannotated false tree_annotated tree_other) by (cbv [tree_annotated tree_other]; ann).
  assert (R : relay (elsewhere tree_annotated_new) tree_other = tree_annotated_new) by ok.
  split; [ok|]. split; [discriminate|]. split; [ok|]. split; [exact P|]. split; [exact R|]. split; [ok|]. split; [discriminate|]. split.
  { rewrite <- R at 1. apply chf_changed; [exact P| |].
    - apply stays_ok; [ok|ok|]. intros n B W. exfalso.
      assert (F : forallb (fun n => negb (is_kind KWith n || is_kind KAsyncWith n)) (walk tree_other) = true) by ok.
      rewrite forallb_forall in F. apply walk_below in B. specialize (F n B).
      destruct W as [W|W]; apply isa_kind in W; rewrite W in F; [discriminate|rewrite orb_true_r in F; discriminate].
    - split; intros H; vm_compute in H; discriminate. }
  split; ok.
Qed.

Definition mins_in (r : res presult) := match r with Ok a => Some (r_mins a) | Err _ => None end.
Lemma differ r r' : mins_in r <> mins_in r' -> ~ same_result r r'.
Proof. intros N S. apply N. destruct r, r'; cbn in *; try contradiction; try reflexivity. destruct S as (_ & -> & _). reflexivity. Qed.

(** What is missing. Annotations of arguments are visited all the same: [def f(a: typing.Self): pass] needs 3.11 where
    [def f(a: int): pass] does not. *)
Theorem c86_argument_refuted : exists c v v', c_eval_annotations c = false /\ targets_given c /\ path_ok c "a.py" = true /\
  blank v = blank v' /\
  ~ same_result (process_tree (mkHooks selfdoc no_dump) c "a.py" "" v [] EndDone) (process_tree (mkHooks selfdoc no_dump) c "a.py" "" v' [] EndDone).
Proof.
  exists (default_config 1), tree_argument, (relay (elsewhere tree_argument) tree_argument_new).
  split; [ok|]. split; [discriminate|]. split; [ok|]. split; [ok|]. apply differ; vm_compute; discriminate.
Qed.
Print Assumptions c86_argument_refuted.

(** What stands directly in a class is visited a second time, annotations included: the same for what a method returns, *)
Theorem c86_method_refuted : exists c v v', c_eval_annotations c = false /\ targets_given c /\ path_ok c "a.py" = true /\
  blank v = blank v' /\ (forall n, below n v -> isa Karg n -> attr "annotation" n = VNone) /\
  ~ same_result (process_tree (mkHooks selfdoc no_dump) c "a.py" "" v [] EndDone) (process_tree (mkHooks selfdoc no_dump) c "a.py" "" v' [] EndDone).
Proof.
  exists (default_config 1), tree_method, (relay (elsewhere tree_method) tree_method_new).
  split; [ok|]. split; [discriminate|]. split; [ok|]. split; [ok|]. split; [|apply differ; vm_compute; discriminate].
  intros n B K. apply walk_below in B.
  assert (F : forallb (fun n => negb (is_kind Karg n) || is_none (attr "annotation" n)) (walk tree_method) = true) by ok.
  rewrite forallb_forall in F. specialize (F n B). apply isa_kind in K. rewrite K in F. cbn [negb orb] in F.
  destruct (attr "annotation" n); try discriminate. reflexivity.
Qed.
Print Assumptions c86_method_refuted.

(** and for the attributes of a class, such as those of a dataclass. *)
Theorem c86_attribute_refuted : exists c v v', c_eval_annotations c = false /\ targets_given c /\ path_ok c "a.py" = true /\
  blank v = blank v' /\ (forall n, below n v -> ~ isa KFunctionDef n /\ ~ isa KAsyncFunctionDef n) /\
  ~ same_result (process_tree (mkHooks selfdoc no_dump) c "a.py" "" v [] EndDone) (process_tree (mkHooks selfdoc no_dump) c "a.py" "" v' [] EndDone).
Proof.
  exists (default_config 1), tree_attribute, (relay (elsewhere tree_attribute) tree_attribute_new).
  split; [ok|]. split; [discriminate|]. split; [ok|]. split; [ok|]. split; [|apply differ; vm_compute; discriminate].
  intros n B. apply walk_below in B.
  assert (F : forallb (fun n => negb (is_kind KFunctionDef n) && negb (is_kind KAsyncFunctionDef n)) (walk tree_attribute) = true) by ok.
  rewrite forallb_forall in F. specialize (F n B). apply andb_true_iff in F as [F F']. rewrite !isa_kind.
  destruct (is_kind KFunctionDef n), (is_kind KAsyncFunctionDef n); try discriminate; split; discriminate.
Qed.
Print Assumptions c86_attribute_refuted.
Example c86_versions :
  map (fun x => mins_of (result_of (fst x) (PTree (snd x) (inr []))))
    [(src_argument, tree_argument); (src_argument_new, tree_argument_new); (src_method, tree_method); (src_method_new, tree_method_new);
     (src_attribute, tree_attribute); (src_attribute_new, tree_attribute_new)] =
  [Some (None, Some (3, 5)); Some (None, Some (3, 11)); Some (None, Some (3, 5)); Some (None, Some (3, 11)); Some (None, Some (3, 6)); Some (None, Some (3, 11))].
Proof. ok. Qed.
