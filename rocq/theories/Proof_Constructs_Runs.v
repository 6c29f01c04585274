(** Settings for constructs that a source does not have: files and runs. Lemmas for C88. *)
From Verif Require Import PyBase PyLemmas Utility RulesData Rules Config Formats Paths AstKinds Ast State Visitor MinVersions
  Parser Processor Main Spec_Base Spec_Visitor Spec_Constructs Proof_Shapes Proof_Constructs.

Section Keep.
  Variables (e : env) (D : bool) (bad : string -> Prop).
  Notation Q := (P D bad).
  Lemma P_print lv m en li ve pl s s' : Q s -> verbose_print_v e lv m en li ve pl s = Ok s' -> Q s'.
  Proof.
    destruct e as [c pa so no sd du]. intros H E.
    exact (proj2 (ag_print c [] false false false [] pa so no sd du D bad lv m en li ve pl s H) s' E).
  Qed.
  Lemma P_add w i en m s r : Q s -> add_versions e w i en m s = Ok r -> Q (snd r).
  Proof.
    intros H. unfold add_versions. destruct (violates e (Some w)) as [sh|]; [|discriminate]. cbn [bindr].
    set (a := match i with Some _ => _ | None => _ end). assert (K : forall s', a s = Ok s' -> Q s').
    { subst a. destruct i as [i|]; [|intros s' E; injection E as <-; exact H]. destruct sh; cbn [when]; [|intros s' E; injection E as <-; exact H].
      assert (H1 : Q (u_info (add_info w i (s_info s)) s)) by (apply (P_frame D bad s); [exact H|reflexivity..]).
      intros s' E. unfold seq, upd in E. destruct en; [exact (P_print _ _ _ _ _ _ _ _ H1 E)|injection E as <-; exact H1]. }
    destruct (a s) as [s1|]; [|discriminate]. cbn [bindr]. destruct (combine2 _ _ _ _); [|discriminate]. intros E. injection E as <-.
    apply K. reflexivity.
  Qed.
  Lemma P_run l : forall m s r, Q s -> run_steps e l m s = Ok r -> Q (snd r).
  Proof.
    induction l as [|[w i en|y] l IH]; intros m s r H E; cbn [run_steps] in E; [injection E as <-; exact H| |discriminate].
    destruct (add_versions e w i en m s) as [ms|] eqn:A; [|discriminate]. exact (IH _ _ _ (P_add _ _ _ _ _ _ H A) E).
  Qed.
  Lemma P_minimum s r : Q s -> minimum_versions e s = Ok r -> Q (snd r).
  Proof.
    intros H. unfold minimum_versions. destruct (has_flag s FPrintV3); cbn [when].
    - destruct (verbose_print_v e 2 "print(expr)" None (Some (-1)) (Some (Some (2, 0), Some (3, 0))) None s) as [s1|] eqn:V; [|discriminate].
      apply P_run. exact (P_print _ _ _ _ _ _ _ _ H V).
    - apply P_run, H.
  Qed.
End Keep.

(** Whether the settings for annotations differ. *)
Definition differ (c c' : config) : bool := negb (Bool.eqb (c_eval_annotations c') (c_eval_annotations c)).

(** Only those settings and the ones on which files to look at differ. *)
Definition apart (c c' : config) : Prop :=
  c' = w_features (c_features c') (w_eval_annotations (c_eval_annotations c') (w_analyze_hidden (c_analyze_hidden c')
         (w_scan_symlink_folders (c_scan_symlink_folders c') (w_exclusion_regex_set (c_exclusion_regex_set c') c)))).
Lemma constructs_apart c c' : same_but_constructs c c' -> apart c c'.
Proof. destruct c, c'. unfold same_but_constructs, apart. cbn. intros H. injection H. intros. subst. reflexivity. Qed.

Section Files.
  Variables (c c' : config).
  Hypothesis Rest : apart c c'.
  Notation D := (differ c c').

  Lemma differ_off : D = false -> c_eval_annotations c' = c_eval_annotations c.
  Proof. unfold differ. intros E. apply negb_false_iff in E. apply Bool.eqb_prop, E. Qed.
  Lemma differ_on : D = true -> c_eval_annotations c' <> c_eval_annotations c.
  Proof. unfold differ. intros E Q. rewrite Q, Bool.eqb_reflx in E. discriminate. Qed.

  Section One.
    Variable v : pyval.
    Hypothesis Absent : for_absent v c c'.
    Lemma absent_fine : fine c (c_features c') (c_eval_annotations c') (c_analyze_hidden c') (c_scan_symlink_folders c') (c_exclusion_regex_set c') D (generic_name v) v.
    Proof.
      intros n B. rewrite <- Rest. destruct Absent as [Fs Un An]. split; [|split].
      - destruct Fs as [E|N]; [left; exact E|right; apply N, B].
      - destruct Un as [E|N]; [left; exact E|right; apply N, B].
      - intros d. destruct An as [E|[N S]]; [exfalso; exact (differ_on d E)|]. split; [apply N, B|]. split; [intros k; apply S, B|]. split.
        + intros K a m M I J. eapply gn_import; eauto.
        + intros x K J T X. eapply gn_given; eauto.
    Qed.
    Variables (path : string) (src : option string) (nol : list Z).
    Variables (sd : list (string * string) -> pyval -> res bool) (dump : pyval -> string).
    Notation e := (mkEnv c path src nol sd dump).
    Notation e' := (mkEnv c' path src nol sd dump).
    Lemma tour_same : tour e' v = tour e v /\ forall s, tour e v = Ok s -> P D (generic_name v) s.
    Proof.
      pose proof (tour_ag c (c_features c') (c_eval_annotations c') (c_analyze_hidden c') (c_scan_symlink_folders c') (c_exclusion_regex_set c') path src nol sd dump D differ_off (generic_name v) (gn_type v) v absent_fine) as T.
      rewrite <- Rest in T. exact T.
    Qed.
    Lemma add_versions_same w i en m s : add_versions e' w i en m s = add_versions e w i en m s.
    Proof. rewrite Rest. reflexivity. Qed.
    Lemma run_steps_same l : forall m s, run_steps e' l m s = run_steps e l m s.
    Proof.
      induction l as [|[w i en|y] l IH]; intros m s; cbn [run_steps]; [reflexivity| |reflexivity].
      rewrite add_versions_same. destruct (add_versions e w i en m s) as [[m1 s1]|]; [apply IH|reflexivity].
    Qed.
    Lemma minimum_same s : minimum_versions e' s = minimum_versions e s.
    Proof.
      unfold minimum_versions.
      assert (S : steps e' s = steps e s) by (unfold steps; change (bps_of e') with (c_backports c'); rewrite Rest; reflexivity). rewrite S.
      assert (E : verbose_print_v e' 2 "print(expr)" None (Some (-1)) (Some (Some (2, 0), Some (3, 0))) None =
                  verbose_print_v e 2 "print(expr)" None (Some (-1)) (Some (Some (2, 0), Some (3, 0))) None) by (rewrite Rest; reflexivity).
      rewrite E. destruct (when (has_flag s FPrintV3) _ s) as [s1|]; [apply run_steps_same|reflexivity].
    Qed.
  End One.

  Lemma file_same h path source v nov how : for_absent v c c' ->
    process_tree h c' path source v nov how = process_tree h c path source v nov how /\
    forall r, process_tree h c path source v nov how = Ok r -> D = true -> r_maybe r = false.
  Proof.
    intros O. unfold process_tree, make_visitor, py_assert.
    assert (E : path_ok c' path = path_ok c path) by (rewrite Rest; reflexivity). rewrite E. destruct (path_ok c path); [|split; [reflexivity|discriminate]].
    cbn [bindr]. destruct (tour_same v O path (Some source) nov (h_selfdoc h) (h_dump h)) as [T K].
    assert (DD : (letr s := tour (mkEnv c' path (Some source) nov (h_selfdoc h) (h_dump h)) v in
                 match minimum_versions (mkEnv c' path (Some source) nov (h_selfdoc h) (h_dump h)) s with
                 | Ok (m, s') => Ok (mkRes path (MVers m) (output_text (mkEnv c' path (Some source) nov (h_selfdoc h) (h_dump h)) s') nov
                                      (dedup (filter is_backport (s_modules s'))) (has_flag s' FMaybeAnnotations))
                 | Err (InvalidVersion msg) => Ok (mkRes path MNone msg nov [] false)
                 | Err x => Err x end) =
                (letr s := tour (mkEnv c path (Some source) nov (h_selfdoc h) (h_dump h)) v in
                 match minimum_versions (mkEnv c path (Some source) nov (h_selfdoc h) (h_dump h)) s with
                 | Ok (m, s') => Ok (mkRes path (MVers m) (output_text (mkEnv c path (Some source) nov (h_selfdoc h) (h_dump h)) s') nov
                                      (dedup (filter is_backport (s_modules s'))) (has_flag s' FMaybeAnnotations))
                 | Err (InvalidVersion msg) => Ok (mkRes path MNone msg nov [] false)
                 | Err x => Err x end) /\
                forall r, (letr s := tour (mkEnv c path (Some source) nov (h_selfdoc h) (h_dump h)) v in
                 match minimum_versions (mkEnv c path (Some source) nov (h_selfdoc h) (h_dump h)) s with
                 | Ok (m, s') => Ok (mkRes path (MVers m) (output_text (mkEnv c path (Some source) nov (h_selfdoc h) (h_dump h)) s') nov
                                      (dedup (filter is_backport (s_modules s'))) (has_flag s' FMaybeAnnotations))
                 | Err (InvalidVersion msg) => Ok (mkRes path MNone msg nov [] false)
                 | Err x => Err x end) = Ok r -> D = true -> r_maybe r = false).
    { rewrite T. destruct (tour (mkEnv c path (Some source) nov (h_selfdoc h) (h_dump h)) v) as [s|]; [|split; [reflexivity|discriminate]].
      cbn [bindr]. specialize (K s eq_refl). rewrite (minimum_same path (Some source) nov (h_selfdoc h) (h_dump h) s).
      destruct (minimum_versions (mkEnv c path (Some source) nov (h_selfdoc h) (h_dump h)) s) as [[m s']|x] eqn:M.
      - split.
        + replace (output_text (mkEnv c' path (Some source) nov (h_selfdoc h) (h_dump h)) s')
            with (output_text (mkEnv c path (Some source) nov (h_selfdoc h) (h_dump h)) s') by (rewrite Rest; reflexivity). reflexivity.
        + intros r E' d. injection E' as <-. exact (proj1 (P_minimum _ _ _ _ _ K M d)).
      - split; [reflexivity|]. destruct x; try discriminate. intros r E' d. injection E' as <-. reflexivity. }
    destruct how; try exact DD; split; try reflexivity; try discriminate. intros r E' d. injection E' as <-. reflexivity.
  Qed.

  Lemma detect_same h major path src v nov p : for_absent v c c' -> parser_detect major c p = DTree v nov ->
    api_detect h major c' path src p = api_detect h major c path src p.
  Proof.
    intros O D. assert (D' : parser_detect major c' p = DTree v nov) by (rewrite Rest; exact D).
    unfold api_detect, api_visit. rewrite D, D'. unfold make_visitor, py_assert.
    assert (E : path_ok c' (api_path path) = path_ok c (api_path path)) by (rewrite Rest; reflexivity). rewrite E.
    destruct (path_ok c (api_path path)); [|reflexivity]. cbn [bindr].
    destruct (tour_same v O (api_path path) (Some src) nov (h_selfdoc h) (h_dump h)) as [T K]. rewrite T.
    destruct (tour (mkEnv c _ _ _ _ _) v) as [s|]; [|reflexivity]. cbn [bindr]. specialize (K s eq_refl).
    rewrite (minimum_same (api_path path) (Some src) nov (h_selfdoc h) (h_dump h) s).
    destruct (minimum_versions (mkEnv c _ _ _ _ _) s) as [ms|] eqn:M; [|reflexivity]. cbn [bindr]. f_equal.
    apply minimum_same.
  Qed.

  (** Runs. *)
  Variables (h : hooks) (major : Z) (file : string -> fcontent) (how : string -> ending) (paths : list string).
  Hypothesis Others : forall p src q v nov, In p paths -> file p = FcSource src q -> parser_detect major c q = DTree v nov -> for_absent v c c'.
  Lemma individual_same p : In p paths ->
    process_individual h major c' p (file p) (how p) = process_individual h major c p (file p) (how p) /\
    forall r, snd (process_individual h major c p (file p) (how p)) = Ok (Some r) -> D = true -> r_maybe r = false.
  Proof.
    intros I. unfold process_individual.
    destruct (file p) as [x|src q] eqn:F.
    - split; [reflexivity|]. destruct (how p), x; cbn; intros r E; try discriminate E; injection E as <-; reflexivity.
    - assert (DD : parser_detect major c' q = parser_detect major c q) by (rewrite Rest; reflexivity). rewrite DD.
      destruct (parser_detect major c q) as [v nov|mv pr|x] eqn:Q.
      + destruct (file_same h p src v nov (how p) (Others p src q v nov I F Q)) as [E K].
        assert (G : forall r, mapr Some (process_tree h c p src v nov (how p)) = Ok (Some r) -> D = true -> r_maybe r = false).
        { intros r Er. destruct (process_tree h c p src v nov (how p)) as [r0|]; [|discriminate]. injection Er as <-. exact (K r0 eq_refl). }
        rewrite E. destruct (how p); (split; [reflexivity|]); try exact G. discriminate.
      + split; [reflexivity|]. destruct (how p); cbn; intros r E; try discriminate E; injection E as <-; reflexivity.
      + split; [reflexivity|]. destruct (how p), x; cbn; intros r E; try discriminate E; injection E as <-; reflexivity.
  Qed.

  Lemma agg_step_same r a : agg_step c' r a = agg_step c r a.
  Proof. rewrite Rest. reflexivity. Qed.
  Lemma agg_loop_same rs : forall a, agg_loop c' rs a = agg_loop c rs a.
  Proof.
    induction rs as [|[r|x] rs IH]; intros a; [reflexivity| |reflexivity]. cbn [agg_loop]. rewrite agg_step_same.
    destruct (agg_step c r a); [apply IH|reflexivity].
  Qed.
  Lemma run_same n rs : run_results c' n rs = run_results c n rs.
  Proof. unfold run_results. rewrite !agg_loop_same. reflexivity. Qed.
  Lemma results_same : map (fun p => snd (process_individual h major c' p (file p) (how p))) paths =
                       map (fun p => snd (process_individual h major c p (file p) (how p))) paths.
  Proof. apply map_ext_in. intros p I. rewrite (proj1 (individual_same p I)). reflexivity. Qed.
  Lemma process_same n : process h major c' file how n paths = process h major c file how n paths.
  Proof.
    unfold process. rewrite results_same, run_same. destruct (run_results _ _ _) as [a [x|]]; [|reflexivity].
    destruct x; try reflexivity. assert (E : nprint c' runtime_note = nprint c runtime_note) by (rewrite Rest; reflexivity). rewrite E. reflexivity.
  Qed.

  Definition quiet_agg (a : agg) : Prop := D = true -> a_maybe a = false.
  Lemma step_quiet r a a' : (forall r0, r = Some r0 -> D = true -> r_maybe r0 = false) -> quiet_agg a -> agg_step c r a = Ok a' -> quiet_agg a'.
  Proof.
    intros R A. unfold agg_step. destruct r as [r|]; [|intros E; injection E as <-; exact A].
    destruct (r_mins r) as [| |m]; [intros E; injection E as <-; exact A|discriminate|].
    assert (U : D = true -> a_maybe a || r_maybe r = false) by (intros d; rewrite (A d), (R r eq_refl d); reflexivity).
    destruct (combine2 _ _ _ _) as [m'|x]; [intros E; injection E as <-; exact U|]. destruct x; try discriminate.
    intros E. injection E as <-. exact U.
  Qed.
  Lemma loop_quiet rs : (forall r0, In (Ok (Some r0)) rs -> D = true -> r_maybe r0 = false) -> forall a, quiet_agg a -> quiet_agg (fst (agg_loop c rs a)).
  Proof.
    induction rs as [|[r|x] rs IH]; intros R a A; [exact A| |exact A]. cbn [agg_loop].
    destruct (agg_step c r a) as [a'|] eqn:S; [|exact A]. apply IH; [intros r0 I; apply R; right; exact I|].
    apply (step_quiet r a); [|exact A|exact S]. intros r0 ->. apply R. left. reflexivity.
  Qed.
  Lemma process_quiet n out s : process h major c file how n paths = (out, Ok s) -> D = true -> m_maybe s = false.
  Proof.
    unfold process. set (rs := map _ paths). assert (R : forall r0, In (Ok (Some r0)) rs -> D = true -> r_maybe r0 = false).
    { intros r0 I. subst rs. apply in_map_iff in I as (p & E & I). exact (proj2 (individual_same p I) r0 E). }
    assert (A : quiet_agg (fst (run_results c n rs))).
    { assert (N : quiet_agg agg_init) by (intros d; reflexivity). unfold run_results. destruct (n =? 1).
      - destruct (first_err rs); [exact N|apply loop_quiet; assumption].
      - destruct (n <? 1); [exact N|apply loop_quiet; assumption]. }
    destruct (run_results c n rs) as [a [x|]]; cbn [fst] in A.
    - destruct x; try discriminate. intros E. injection E as <- <-. exact A.
    - intros E. injection E as <- <-. exact A.
  Qed.
  Lemma tips_same s : (D = true -> m_maybe s = false) -> tips_of c' s = tips_of c s.
  Proof.
    intros H. unfold tips_of. assert (E : m_maybe s && negb (c_eval_annotations c') = m_maybe s && negb (c_eval_annotations c)).
    { destruct D eqn:d; [rewrite H by reflexivity; reflexivity|]. rewrite (differ_off d). reflexivity. }
    rewrite E. rewrite Rest. reflexivity.
  Qed.
  Lemma report_same versions s : (D = true -> m_maybe s = false) -> report c' versions s = report c versions s.
  Proof.
    intros H. unfold report. assert (E : forall reqs, tips_lines c' reqs s = tips_lines c reqs s).
    { intros reqs. unfold tips_lines. rewrite tips_same by exact H. rewrite Rest. reflexivity. }
    rewrite E. rewrite Rest. reflexivity.
  Qed.
End Files.
