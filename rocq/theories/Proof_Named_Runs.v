(** Backports and exclusions for names a source does not say: files and runs. Lemmas for C87. *)
From Verif Require Import PyBase PyLemmas Utility RulesData Rules Config Formats Paths AstKinds Ast State Visitor MinVersions
  Parser Processor Main Spec_Base Spec_Visitor Spec_Rules Spec_Named Proof_Rules Proof_Named.

Section Keep.
  Variables (e : env) (ok : string -> Prop).
  Lemma P_print lv m en li ve pl s s' : P ok s -> verbose_print_v e lv m en li ve pl s = Ok s' -> P ok s'.
  Proof.
    destruct e as [c pa so no sd du]. intros H E.
    exact (proj2 (ag_print c [] [] pa so no sd du ok lv m en li ve pl s H) s' E).
  Qed.
  Lemma P_add w i en m s r : P ok s -> add_versions e w i en m s = Ok r -> P ok (snd r).
  Proof.
    intros H. unfold add_versions. destruct (violates e (Some w)) as [sh|]; [|discriminate]. cbn [bindr].
    set (a := match i with Some _ => _ | None => _ end). assert (K : forall s', a s = Ok s' -> P ok s').
    { subst a. destruct i as [i|]; [|intros s' E; injection E as <-; exact H]. destruct sh; cbn [when]; [|intros s' E; injection E as <-; exact H].
      assert (H1 : P ok (u_info (add_info w i (s_info s)) s)) by (apply (P_frame ok s); [exact H|reflexivity..]).
      intros s' E. unfold seq, upd in E. destruct en; [exact (P_print _ _ _ _ _ _ _ _ H1 E)|injection E as <-; exact H1]. }
    destruct (a s) as [s1|]; [|discriminate]. cbn [bindr]. destruct (combine2 _ _ _ _); [|discriminate]. intros E. injection E as <-.
    apply K. reflexivity.
  Qed.
  Lemma P_run l : forall m s r, P ok s -> run_steps e l m s = Ok r -> P ok (snd r).
  Proof.
    induction l as [|[w i en|y] l IH]; intros m s r H E; cbn [run_steps] in E; [injection E as <-; exact H| |discriminate].
    destruct (add_versions e w i en m s) as [ms|] eqn:A; [|discriminate]. exact (IH _ _ _ (P_add _ _ _ _ _ _ H A) E).
  Qed.
  Lemma P_minimum s r : P ok s -> minimum_versions e s = Ok r -> P ok (snd r).
  Proof.
    intros H. unfold minimum_versions. destruct (has_flag s FPrintV3); cbn [when].
    - destruct (verbose_print_v e 2 "print(expr)" None (Some (-1)) (Some (Some (2, 0), Some (3, 0))) None s) as [s1|] eqn:V; [|discriminate].
      apply P_run. exact (P_print _ _ _ _ _ _ _ _ H V).
    - apply P_run, H.
  Qed.
End Keep.

Section Files.
  Variables (c c' : config).
  Hypothesis Rest : same_settings c c'.

  Lemma file_same h path source v nov how : about_others v c c' ->
    process_tree h c' path source v nov how = process_tree h c path source v nov how /\
    forall r, process_tree h c path source v nov how = Ok r -> forall m, In m (r_bps r) -> made_of v m.
  Proof.
    intros O. unfold process_tree, make_visitor, py_assert.
    assert (E : path_ok c' path = path_ok c path) by (rewrite Rest; reflexivity). rewrite E. destruct (path_ok c path); [|split; [reflexivity|discriminate]].
    cbn [bindr]. destruct (tour_same v c c' Rest O path (Some source) nov (h_selfdoc h) (h_dump h)) as [T K].
    assert (D : (letr s := tour (mkEnv c' path (Some source) nov (h_selfdoc h) (h_dump h)) v in
                 match minimum_versions (mkEnv c' path (Some source) nov (h_selfdoc h) (h_dump h)) s with
                 | Ok (m, s') => Ok (mkRes path (MVers m) (output_text (mkEnv c' path (Some source) nov (h_selfdoc h) (h_dump h)) s') nov
                                      (dedup (filter is_backport (s_modules s'))) (has_flag s' FMaybeAnnotations))
                 | Err (InvalidVersion msg) => Ok (mkRes path MNone msg nov [] false)
                 | Err x => Err x end) =
                (letr s := tour (mkEnv c path (Some source) nov (h_selfdoc h) (h_dump h)) v in
                 match minimum_versions (mkEnv c path (Some source) nov (h_selfdoc h) (h_dump h)) s with
                 | Ok (m, s') => Ok (mkRes path (MVers m) (output_text (mkEnv c path (Some source) nov (h_selfdoc h) (h_dump h)) s') nov
                                      (dedup (filter is_backport (s_modules s'))) (has_flag s' FMaybeAnnotations))
                 | Err (InvalidVersion msg) => Ok (mkRes path MNone msg nov [] false)
                 | Err x => Err x end) /\
                forall r, (letr s := tour (mkEnv c path (Some source) nov (h_selfdoc h) (h_dump h)) v in
                 match minimum_versions (mkEnv c path (Some source) nov (h_selfdoc h) (h_dump h)) s with
                 | Ok (m, s') => Ok (mkRes path (MVers m) (output_text (mkEnv c path (Some source) nov (h_selfdoc h) (h_dump h)) s') nov
                                      (dedup (filter is_backport (s_modules s'))) (has_flag s' FMaybeAnnotations))
                 | Err (InvalidVersion msg) => Ok (mkRes path MNone msg nov [] false)
                 | Err x => Err x end) = Ok r -> forall m, In m (r_bps r) -> made_of v m).
    { rewrite T. destruct (tour (mkEnv c path (Some source) nov (h_selfdoc h) (h_dump h)) v) as [s|]; [|split; [reflexivity|discriminate]].
      cbn [bindr]. specialize (K s eq_refl). rewrite (minimum_same v c c' Rest O path (Some source) nov (h_selfdoc h) (h_dump h) s K).
      destruct (minimum_versions (mkEnv c path (Some source) nov (h_selfdoc h) (h_dump h)) s) as [[m s']|x] eqn:M.
      - split.
        + replace (output_text (mkEnv c' path (Some source) nov (h_selfdoc h) (h_dump h)) s')
            with (output_text (mkEnv c path (Some source) nov (h_selfdoc h) (h_dump h)) s') by (rewrite Rest; reflexivity). reflexivity.
        + intros r E' n I. injection E' as <-. cbn [r_bps] in I. apply (proj1 (dedup_In _ _)) in I. apply filter_In in I as [I _].
          exact (p_modules _ _ (P_minimum _ _ _ _ K M) n I).
      - split; [reflexivity|]. destruct x; try discriminate. intros r E' n I. injection E' as <-. destruct I. }
    destruct how; try exact D; split; try reflexivity; try discriminate. intros r E' n I. injection E' as <-. destruct I.
  Qed.

  Lemma detect_same h major path src v nov p : about_others v c c' -> parser_detect major c p = DTree v nov ->
    api_detect h major c' path src p = api_detect h major c path src p.
  Proof.
    intros O D. assert (D' : parser_detect major c' p = DTree v nov) by (rewrite Rest; exact D).
    unfold api_detect, api_visit. rewrite D, D'. unfold make_visitor, py_assert.
    assert (E : path_ok c' (api_path path) = path_ok c (api_path path)) by (rewrite Rest; reflexivity). rewrite E.
    destruct (path_ok c (api_path path)); [|reflexivity]. cbn [bindr].
    destruct (tour_same v c c' Rest O (api_path path) (Some src) nov (h_selfdoc h) (h_dump h)) as [T K]. rewrite T.
    destruct (tour (mkEnv c _ _ _ _ _) v) as [s|]; [|reflexivity]. cbn [bindr]. specialize (K s eq_refl).
    rewrite (minimum_same v c c' Rest O (api_path path) (Some src) nov (h_selfdoc h) (h_dump h) s K).
    destruct (minimum_versions (mkEnv c _ _ _ _ _) s) as [ms|] eqn:M; [|reflexivity]. cbn [bindr]. f_equal.
    apply (minimum_same v c c' Rest O). exact (P_minimum _ _ _ _ K M).
  Qed.

  (** Runs. *)
  Variables (h : hooks) (major : Z) (file : string -> fcontent) (how : string -> ending) (paths : list string).
  Hypothesis Others : forall p src q v nov, In p paths -> file p = FcSource src q -> parser_detect major c q = DTree v nov -> about_others v c c'.
  Definition found (m : string) : Prop :=
    exists p src q v nov, In p paths /\ file p = FcSource src q /\ parser_detect major c q = DTree v nov /\ made_of v m.

  Lemma individual_same p : In p paths ->
    process_individual h major c' p (file p) (how p) = process_individual h major c p (file p) (how p) /\
    forall r, snd (process_individual h major c p (file p) (how p)) = Ok (Some r) -> forall m, In m (r_bps r) -> found m.
  Proof.
    intros I. unfold process_individual.
    destruct (file p) as [x|src q] eqn:F.
    - split; [reflexivity|]. destruct (how p), x; cbn; intros r E; try discriminate E; injection E as <-; intros m [].
    - assert (D : parser_detect major c' q = parser_detect major c q) by (rewrite Rest; reflexivity). rewrite D.
      destruct (parser_detect major c q) as [v nov|mv pr|x] eqn:Q.
      + destruct (file_same h p src v nov (how p) (Others p src q v nov I F Q)) as [E K].
        assert (G : forall r, mapr Some (process_tree h c p src v nov (how p)) = Ok (Some r) -> forall m, In m (r_bps r) -> found m).
        { intros r Er m J. destruct (process_tree h c p src v nov (how p)) as [r0|]; [|discriminate]. injection Er as <-.
          exists p, src, q, v, nov. repeat split; try assumption. exact (K r0 eq_refl m J). }
        rewrite E. destruct (how p); (split; [reflexivity|]); try exact G. discriminate.
      + split; [reflexivity|]. destruct (how p); cbn; intros r E; try discriminate E; injection E as <-; intros m [].
      + split; [reflexivity|]. destruct (how p), x; cbn; intros r E; try discriminate E; injection E as <-; intros m [].
  Qed.

  Lemma agg_step_same r a : agg_step c' r a = agg_step c r a.
  Proof. rewrite Rest. reflexivity. Qed.
  Lemma agg_loop_same rs : forall a, agg_loop c' rs a = agg_loop c rs a.
  Proof.
    induction rs as [|[r|x] rs IH]; intros a; [reflexivity| |reflexivity]. cbn [agg_loop]. rewrite agg_step_same.
    destruct (agg_step c r a); [apply IH|reflexivity].
  Qed.
  Lemma run_same n rs : run_results c' n rs = run_results c n rs.
  Proof. unfold run_results. rewrite !agg_loop_same. reflexivity. Qed.
  Lemma results_same : map (fun p => snd (process_individual h major c' p (file p) (how p))) paths =
                       map (fun p => snd (process_individual h major c p (file p) (how p))) paths.
  Proof. apply map_ext_in. intros p I. rewrite (proj1 (individual_same p I)). reflexivity. Qed.
  Lemma process_same n : process h major c' file how n paths = process h major c file how n paths.
  Proof.
    unfold process. rewrite results_same, run_same. destruct (run_results _ _ _) as [a [x|]]; [|reflexivity].
    destruct x; try reflexivity. assert (E : nprint c' runtime_note = nprint c runtime_note) by (rewrite Rest; reflexivity). rewrite E. reflexivity.
  Qed.

  Lemma set_union_In (l : list string) : forall k m, In m (set_union k l) -> In m k \/ In m l.
  Proof.
    unfold set_union. induction l as [|y l IH]; intros k m I; [left; exact I|]. cbn [fold_left] in I. destruct (IH _ _ I) as [J|J].
    - unfold set_add in J. destruct (mem y k); [left; exact J|]. apply in_app_or in J as [J|[<-|[]]]; [left; exact J|right; left; reflexivity].
    - right. right. exact J.
  Qed.
  Definition only_found (a : agg) : Prop := forall m, In m (a_bps a) -> found m.
  Lemma step_found r a a' : (forall r0, r = Some r0 -> forall m, In m (r_bps r0) -> found m) -> only_found a -> agg_step c r a = Ok a' -> only_found a'.
  Proof.
    intros R A. unfold agg_step. destruct r as [r|]; [|intros E; injection E as <-; exact A].
    destruct (r_mins r) as [| |m]; [intros E; injection E as <-; exact A|discriminate|].
    assert (U : forall m, In m (set_union (a_bps a) (r_bps r)) -> found m).
    { intros q I. apply set_union_In in I as [I|I]; [apply A, I|apply (R r eq_refl), I]. }
    destruct (combine2 _ _ _ _) as [m'|x]; [intros E; injection E as <-; exact U|]. destruct x; try discriminate.
    intros E. injection E as <-. exact U.
  Qed.
  Lemma loop_found rs : (forall r0, In (Ok (Some r0)) rs -> forall m, In m (r_bps r0) -> found m) -> forall a, only_found a -> only_found (fst (agg_loop c rs a)).
  Proof.
    induction rs as [|[r|x] rs IH]; intros R a A; [exact A| |exact A]. cbn [agg_loop].
    destruct (agg_step c r a) as [a'|] eqn:S; [|exact A]. apply IH; [intros r0 I; apply R; right; exact I|].
    apply (step_found r a); [|exact A|exact S]. intros r0 ->. apply R. left. reflexivity.
  Qed.
  Lemma process_found n out s : process h major c file how n paths = (out, Ok s) -> forall m, In m (m_bps s) -> found m.
  Proof.
    unfold process. set (rs := map _ paths). assert (R : forall r0, In (Ok (Some r0)) rs -> forall m, In m (r_bps r0) -> found m).
    { intros r0 I. subst rs. apply in_map_iff in I as (p & E & I). exact (proj2 (individual_same p I) r0 E). }
    assert (A : only_found (fst (run_results c n rs))).
    { assert (N : only_found agg_init) by (intros m []). unfold run_results. destruct (n =? 1).
      - destruct (first_err rs); [exact N|apply loop_found; assumption].
      - destruct (n <? 1); [exact N|apply loop_found; assumption]. }
    destruct (run_results c n rs) as [a [x|]]; cbn [fst] in A.
    - destruct x; try discriminate. intros E. injection E as <- <-. exact A.
    - intros E. injection E as <- <-. exact A.
  Qed.

  Lemma tips_same s : (forall m, In m (m_bps s) -> found m) -> tips_of c' s = tips_of c s.
  Proof.
    intros H. unfold tips_of.
    assert (E : filter (fun b => negb (mem b (unversioned_filter (c_backports c')))) (m_bps s) =
                filter (fun b => negb (mem b (unversioned_filter (c_backports c)))) (m_bps s)).
    { apply filter_ext_in. intros m I. f_equal. destruct (H m I) as (p & src & q & v & nov & Ip & F & Q & M).
      apply (unversioned_same _ _ (made_of v)); [|exact M]. exact (ab_backports _ _ _ (Others p src q v nov Ip F Q)). }
    rewrite E. rewrite Rest. reflexivity.
  Qed.
  Lemma report_same versions s : (forall m, In m (m_bps s) -> found m) -> report c' versions s = report c versions s.
  Proof.
    intros H. unfold report. assert (E : forall reqs, tips_lines c' reqs s = tips_lines c reqs s).
    { intros reqs. unfold tips_lines. rewrite tips_same by exact H. rewrite Rest. reflexivity. }
    rewrite E. rewrite Rest. reflexivity.
  Qed.
End Files.

(** *** Single settings *)

Lemma exclusion_other v c y : excludes_other v y -> same_settings c (add_exclusion y c) /\ about_others v c (add_exclusion y c).
Proof.
  intros (N & K & H & E). split; [reflexivity|]. constructor; cbn [add_exclusion w_exclusions_set c_exclusions_set c_backports]; try tauto.
  - intros m M. rewrite set_add_In. split; [auto|]. intros [->|I]; [contradiction|exact I].
  - intros m k M. rewrite set_add_In. split; [auto|]. intros [Q|I]; [exfalso; exact (K m k (eq_sym Q) M)|exact I].
  - intros t. rewrite set_add_In. split; [auto|]. intros [Q|I]; [exfalso; exact (H t (eq_sym Q))|exact I].
  - intros t. rewrite set_add_In. split; [auto|]. intros [Q|I]; [exfalso; exact (E t (eq_sym Q))|exact I].
Qed.
Lemma backport_other v c b : backport_of_other v b -> same_settings c (fst (add_backport b c)) /\ about_others v c (fst (add_backport b c)).
Proof.
  intros B. unfold add_backport. destruct (is_backport b); cbn [fst].
  - split; [reflexivity|]. constructor; cbn [w_backports c_exclusions_set c_backports]; try tauto.
    intros n m M V. rewrite set_add_In. split; [auto|]. intros [->|I]; [exfalso; exact (B n V M)|exact I].
  - split; [destruct c; reflexivity|]. constructor; tauto.
Qed.

(** What a tree says, computed. *)
Definition node_texts (n : pyval) : list string :=
  flat_map (fun fx => if String.eqb (fst fx) "value" then [] else match snd fx with VStr t => [t] | _ => [] end) (Ast.fields n).
Definition words (v : pyval) : list string := flat_map (fun n => flat_map parts (node_texts n)) (walk v).
Lemma says_words v t p : says v t -> In p (parts t) -> In p (words v).
Proof.
  intros (n & f & B & N & E) I. apply in_flat_map. exists n. split; [apply Proof_Shapes.walk_below, B|]. apply in_flat_map. exists t.
  split; [|exact I]. unfold attr, fld in E. destruct (assoc f (Ast.fields n)) as [y|] eqn:A; [|discriminate]. subst y.
  apply in_flat_map. exists (f, VStr t). split; [exact (assoc_In _ _ _ A)|]. cbn [fst snd].
  destruct (String.eqb f "value") eqn:Q; [apply String.eqb_eq in Q; contradiction|]. left. reflexivity.
Qed.
Definition foreign (v : pyval) (m : string) : bool := existsb (fun p => negb (mem p literal_types) && negb (mem p (words v))) (parts m).
Lemma foreign_other v m : foreign v m = true -> ~ made_of v m.
Proof.
  intros F M. unfold foreign in F. apply existsb_exists in F as (p & I & F). apply andb_true_iff in F as [F G].
  destruct (M p I) as [T|(t & S & J)].
  - apply mem_In in T. rewrite T in F. discriminate.
  - apply says_words with (1 := S), mem_In in J. rewrite J in G. discriminate.
Qed.
