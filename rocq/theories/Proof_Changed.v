(** Sources whose trees are visited alike, and that may have another layout. Lemmas for C85 and C86. *)
From Verif Require Import PyBase PyLemmas Utility RulesData Rules Config Formats Paths AstKinds Ast State Visitor MinVersions Fstring
  Parser Processor Spec_Base Spec_Visitor Spec_Seen Spec_MinVersions Spec_Same Spec_Layout Spec_Idle
  Proof_Tour Proof_MinVersions Proof_Same Proof_Verdict Proof_Layout Proof_Moved.

Lemma sim_after c path src nl sd d d' : targets_given c ->
  sim (after_visit_all (mkEnv c path src nl sd d)) (after_visit_all (mkEnv c path src nl sd d')).
Proof.
  intros T s s' L. unfold after_visit_all, rd.
  assert (U : s_user_defs s' = s_user_defs s) by (destruct L as (o & l & z & ->); reflexivity). rewrite U.
  refine (sim_each _ _ _ _ s s' L). intros x _. apply sim_seq.
  all: unfold drop_user_def; apply sim_rd; [intros; reflexivity|]; intros t; apply sim_seq;
    [apply sim_each; intros; apply (sim_print c c path src nl sd d d' T T)|apply sim_upd_eq; intros; reflexivity].
Qed.

Section Changed.
  Variable Good : config -> Prop.
  Variable Rel : pyval -> pyval -> Prop.
  Hypothesis visited : forall c path src nl sd d d' v v', Good c -> targets_given c -> Rel v v' ->
    sim (visit (mkEnv c path src nl sd d) v) (visit (mkEnv c path src nl sd d') v').

  Lemma tour_changed c path src nl sd d d' v v' : Good c -> targets_given c -> Rel v v' ->
    simr (tour (mkEnv c path src nl sd d) v) (tour (mkEnv c path src nl sd d') v').
  Proof.
    intros G T E. unfold tour. refine (sim_seq _ _ _ _ _ _ init_st init_st (like_refl _)); [apply visited; assumption|].
    apply sim_after, T.
  Qed.

(** ** Files *)
Lemma file_changed sd d d' c path source v v' nov how :
  Good c -> targets_given c -> path_ok c path = true -> Rel v v' ->
  same_result (process_tree (mkHooks sd d) c path source v nov how) (process_tree (mkHooks sd d') c path source v' nov how).
Proof.
  intros Gd T P E. unfold process_tree, make_visitor, py_assert. rewrite P. cbn [bindr h_selfdoc h_dump].
  set (e := mkEnv c path (Some source) nov sd d). set (e' := mkEnv c path (Some source) nov sd d').
  assert (M : same_result
    (letr s := tour e v in
     match minimum_versions e s with
     | Ok (m, s') => Ok (mkRes path (MVers m) (output_text e s') nov
                           (dedup (filter is_backport (s_modules s'))) (has_flag s' FMaybeAnnotations))
     | Err (InvalidVersion msg) => Ok (mkRes path MNone msg nov [] false)
     | Err x => Err x end)
    (letr s := tour e' v' in
     match minimum_versions e' s with
     | Ok (m, s') => Ok (mkRes path (MVers m) (output_text e' s') nov
                           (dedup (filter is_backport (s_modules s'))) (has_flag s' FMaybeAnnotations))
     | Err (InvalidVersion msg) => Ok (mkRes path MNone msg nov [] false)
     | Err x => Err x end)).
  { pose proof (tour_changed c path (Some source) nov sd d d' v v' Gd T E) as A. fold e e' in A.
    destruct (tour e v) as [s|x], (tour e' v') as [s'|x']; cbn in A; try contradiction.
    2: exact A.
    cbn [bindr]. pose proof (versions_same e e' eq_refl eq_refl T T s s' A) as V.
    destruct (minimum_versions e s) as [[m t]|x], (minimum_versions e' s') as [[m' t']|x']; cbn in V; try contradiction.
    - destruct V as [<- (o & l & k & i & ->)]. cbn. auto.
    - destruct x, x'; try contradiction; try discriminate V; cbn; auto; try congruence. }
  destruct how; [exact M|cbn; auto|exact M|reflexivity].
Qed.

Lemma same_then_laid a b r : same_result a b -> laid_result b r -> laid_result a r.
Proof.
  destruct a as [a|x], b as [b|y], r as [r|z]; cbn; try contradiction.
  - intros (-> & -> & _ & -> & ->). auto.
  - congruence.
Qed.

Lemma file_changed_laid d d' c path src src' v v' nov nov' how f :
  Good c -> targets_given c -> path_ok c path = true -> Rel v v' ->
  relaid (mkEnv c path (Some src) nov selfdoc d) (mkEnv c path (Some src') nov' selfdoc d') f v' ->
  laid_result (process_tree (mkHooks selfdoc d) c path src v nov how)
              (process_tree (mkHooks selfdoc d') c path src' (relay f v') nov' how).
Proof.
  intros Gd T P E R. eapply same_then_laid; [apply (file_changed selfdoc d d); eassumption|]. apply file_relaid; assumption.
Qed.

Lemma detect_changed_laid d d' major c path src src' v v' nov nov' p p' f :
  Good c -> targets_given c -> path_ok c (api_path path) = true -> Rel v v' ->
  parser_detect major c p = DTree v nov -> parser_detect major c p' = DTree (relay f v') nov' ->
  relaid (mkEnv c (api_path path) (Some src) nov selfdoc d) (mkEnv c (api_path path) (Some src') nov' selfdoc d') f v' ->
  same_mins (api_detect (mkHooks selfdoc d) major c path src p) (api_detect (mkHooks selfdoc d') major c path src' p').
Proof.
  intros Gd T P E D D' R. unfold api_detect, api_visit. rewrite D, D'.
  unfold make_visitor, py_assert. rewrite P. cbn [bindr h_selfdoc h_dump].
  pose proof (tour_changed c (api_path path) (Some src) nov selfdoc d d v v' Gd T E) as A.
  pose proof (tour_relaid c (api_path path) (Some src) (Some src') nov nov' selfdoc selfdoc d d' f T (selfdoc_relay f) v' R) as A'.
  set (e := mkEnv c (api_path path) (Some src) nov selfdoc d) in *. set (e' := mkEnv c (api_path path) (Some src') nov' selfdoc d') in *.
  assert (Q : simr (tour e v) (tour e' (relay f v'))).
  { destruct (tour e v) as [s|x], (tour e v') as [s1|x1], (tour e' (relay f v')) as [s2|x2]; cbn in A, A'; try contradiction; cbn; [|congruence].
    destruct A as (o & l & z & ->), A' as (o' & l' & z' & ->). exists o', l', z'. reflexivity. }
  clear A A'. destruct (tour e v) as [s|x], (tour e' (relay f v')) as [s'|x']; cbn in Q; try contradiction; cbn [bindr]; [|cbn; subst; apply failure_refl].
  pose proof (versions_same e e' eq_refl eq_refl T T s s' Q) as V.
  destruct (minimum_versions e s) as [[m t]|x] eqn:M, (minimum_versions e' s') as [[m' t']|x'] eqn:M'; cbn in V; try contradiction; cbn [bindr snd].
  - destruct V as [<- _].
    destruct (minimum_versions_again e s m t M) as (t2 & -> & _), (minimum_versions_again e' s' m t' M') as (t2' & -> & _). reflexivity.
  - exact V.
Qed.

(** ** Runs *)
Definition laid_work (r r' : res (option presult)) : Prop :=
  match r, r' with
  | Ok None, Ok None => True
  | Ok (Some a), Ok (Some b) => laid_result (Ok a) (Ok b) /\ (r_novermin a = [] <-> r_novermin b = [])
  | Err x, Err x' => x = x'
  | _, _ => False
  end.
Lemma laid_work_refl r : laid_work r r.
Proof. destruct r as [[r|]|x]; cbn; auto. repeat split; auto. Qed.

Lemma tree_lines h c path src v nov how r : path_ok c path = true -> process_tree h c path src v nov how = Ok r -> r_novermin r = nov.
Proof.
  intros P. unfold process_tree, make_visitor, py_assert. rewrite P. cbn [bindr].
  destruct how; try discriminate; try (intros [= <-]; reflexivity).
  all: destruct (tour _ v) as [s|x]; try discriminate; cbn [bindr];
    destruct (minimum_versions _ s) as [[m t]|[]]; try discriminate; intros [= <-]; reflexivity.
Qed.

Lemma individual_changed d major c path how x y : Good c -> targets_given c -> path_ok c path = true -> changed_file Rel c path d x y ->
  laid_work (snd (process_individual (mkHooks selfdoc d) major c path x how))
            (snd (process_individual (mkHooks selfdoc d) major c path y how)).
Proof.
  intros Gd T P M. destruct M as [x|src src' v v' toks toks' f E R N]; [apply laid_work_refl|].
  unfold process_individual.
  assert (D : forall v toks, parser_detect major c (PTree v (inr toks)) = DTree v (lines_of_tokens c toks)).
  { intros w tk. unfold parser_detect, lines_of_tokens. destruct (c_parse_comments c); reflexivity. }
  rewrite !D. pose proof (file_changed_laid d d c path src src' v v' _ _ how f Gd T P E R) as L.
  assert (W : laid_work (mapr Some (process_tree (mkHooks selfdoc d) c path src v (lines_of_tokens c toks) how))
     (mapr Some (process_tree (mkHooks selfdoc d) c path src' (relay f v') (lines_of_tokens c toks') how))).
  { destruct (process_tree _ c path src v _ how) as [a|z] eqn:A, (process_tree _ c path src' _ _ how) as [b|z'] eqn:B;
      cbn in L; try contradiction; cbn [mapr laid_work]; [|exact L].
    apply tree_lines in A, B; auto. rewrite A, B. split; [exact L|exact N]. }
  destruct how; try exact W. reflexivity.
Qed.

Lemma loop_changed c rs rs' : Forall2 laid_work rs rs' -> forall a b, same_agg a b ->
  same_agg (fst (agg_loop c rs a)) (fst (agg_loop c rs' b)) /\ snd (agg_loop c rs a) = snd (agg_loop c rs' b).
Proof.
  intros F. induction F as [|r r' rs rs' W F IH]; intros a b S; cbn [agg_loop]; [split; [exact S|reflexivity]|].
  destruct r as [[r|]|x], r' as [[r'|]|x']; cbn in W; try contradiction.
  - destruct W as ((W1 & W2 & W4 & W5) & W3).
    assert (N : (List.length (r_novermin r) =? 0)%nat = (List.length (r_novermin r') =? 0)%nat).
    { destruct (r_novermin r), (r_novermin r'); try reflexivity; exfalso; destruct W3 as [W W']; [discriminate (W eq_refl)|discriminate (W' eq_refl)]. }
    assert (St : match agg_step c (Some r) a, agg_step c (Some r') b with
                 | Ok a', Ok b' => same_agg a' b' | Err x, Err x' => x = x' | _, _ => False end).
    { cbn [agg_step]. rewrite <- W2. destruct S as (S1 & S2 & S3 & S4 & S5 & S6). destruct (r_mins r) as [| |m].
      - cbn. repeat split; assumption.
      - reflexivity.
      - rewrite <- S1, <- S2, <- S3, <- S4, <- S5, <- S6, <- N, <- W4, <- W5.
        destruct (combine2 _ None (a_mins a) m) as [m'|x]; [cbn; repeat split; reflexivity|].
        destruct x; cbn; repeat split; reflexivity. }
    destruct (agg_step c (Some r) a), (agg_step c (Some r') b); cbn in St; try contradiction.
    + apply IH, St.
    + subst. cbn. split; [exact S|reflexivity].
  - cbn [agg_step]. apply IH, S.
  - subst x'. cbn. split; [exact S|reflexivity].
Qed.

Lemma run_changed d major c file file' how processes paths :
  Good c -> targets_given c -> (forall p, In p paths -> path_ok c p = true) ->
  (forall p, In p paths -> changed_file Rel c p d (file p) (file' p)) ->
  snd (process (mkHooks selfdoc d) major c file how processes paths) = snd (process (mkHooks selfdoc d) major c file' how processes paths).
Proof.
  intros Gd T P N. unfold process.
  set (rs := map (fun p => snd (process_individual (mkHooks selfdoc d) major c p (file p) (how p))) paths).
  set (rs' := map (fun p => snd (process_individual (mkHooks selfdoc d) major c p (file' p) (how p))) paths).
  assert (W : Forall2 laid_work rs rs').
  { subst rs rs'. clear - visited Gd T P N. induction paths as [|p r IH]; cbn [map]; constructor.
    - apply individual_changed; [exact Gd|exact T|apply P; left; reflexivity|apply N; left; reflexivity].
    - apply IH; intros q I; [apply P|apply N]; right; exact I. }
  assert (L : same_agg (fst (run_results c processes rs)) (fst (run_results c processes rs')) /\
              snd (run_results c processes rs) = snd (run_results c processes rs')).
  { assert (E : first_err rs = first_err rs').
    { clear - W. induction W as [|r r' rs rs' A W IH]; [reflexivity|]. unfold first_err in *. cbn [fold_right].
      destruct r as [[r|]|x], r' as [[r'|]|x']; cbn in A; try contradiction; try exact IH. congruence. }
    assert (R : same_agg agg_init agg_init) by (repeat split).
    unfold run_results. rewrite <- E. destruct (processes =? 1).
    - destruct (first_err rs); [split; [exact R|reflexivity]|]. exact (loop_changed c rs rs' W _ _ R).
    - destruct (processes <? 1); [split; [exact R|reflexivity]|]. exact (loop_changed c rs rs' W _ _ R). }
  destruct (run_results c processes rs) as [a o], (run_results c processes rs') as [b o']. cbn [fst snd] in L.
  destruct L as [(L1 & L2 & L3 & L4 & L5 & L6) <-].
  assert (Q : summary_of a = summary_of b) by (unfold summary_of; rewrite L1, L2, L3, L4, L5, L6; reflexivity).
  destruct o as [x|]; [|cbn; rewrite Q; reflexivity]. destruct x; cbn; rewrite ?Q; reflexivity.
Qed.
End Changed.
