(** The verdicts of two analyses that only differ in printing, and in excluded statements. Lemmas for C34, C41. *)
From Verif Require Import PyBase PyLemmas Utility RulesData Rules Config Formats Paths AstKinds Ast State Visitor MinVersions
  Parser Processor Spec_Base Spec_Visitor Spec_MinVersions Spec_Same Proof_MinVersions Proof_Formats Proof_Same.

(** The same versions, the same kind of failure. *)
Definition same_failure (x x' : exn) : Prop :=
  match x, x' with InvalidVersion _, InvalidVersion _ => True | _, _ => x = x' end.
Definition same_verdict {A B} (R : A -> B -> Prop) (r : res (mins * A)) (r' : res (mins * B)) : Prop :=
  match r, r' with
  | Ok (m, a), Ok (m', a') => m = m' /\ R a a'
  | Err x, Err x' => same_failure x x'
  | _, _ => False
  end.

Definition near (s s' : st) : Prop := exists o l c i, s' = u_info i (u_out o (u_line l (u_lcs c s))).

Lemma failure_refl x : same_failure x x.
Proof. destruct x; simpl; auto. Qed.

Lemma add_versions_form e v i ent m s : targets_given (e_cfg e) ->
  exists o f refs, add_versions e v i ent m s =
    match combine2 (c_ignore_incomp (e_cfg e)) refs m v with Ok m' => Ok (m', u_info f (u_out o s)) | Err x => Err x end.
Proof.
  intros T. unfold add_versions, bindr. destruct (violates_ok e (Some v) T) as [b ->].
  assert (Z : s = u_info (s_info s) (u_out (s_out s) s)) by (destruct s; reflexivity).
  assert (K : exists o f, (match i with
     | Some i => when b (upd (fun s => u_info (add_info v i (s_info s)) s) >>
            match ent with Some _ => verbose_print_v e 2 i ent None (Some v) None | None => nop end)
     | None => nop end) s = Ok (u_info f (u_out o s))).
  { destruct i as [i|]; [|exists (s_out s), (s_info s); rewrite <- Z; reflexivity].
    destruct b; [|exists (s_out s), (s_info s); rewrite <- Z; reflexivity]. cbn [when]. unfold seq, upd.
    destruct ent as [x|].
    - destruct (print_ok e 2 i (Some x) None (Some v) None (u_info (add_info v i (s_info s)) s) T) as (s' & E & o & ->).
      rewrite E. exists o, (add_info v i (s_info s)). reflexivity.
    - exists (s_out s), (add_info v i (s_info s)). destruct s; reflexivity. }
  destruct K as (o & f & K). rewrite K. exists o, f, (Some (s_info (u_info f (u_out o s)))). reflexivity.
Qed.

Lemma combine2_refs ig refs refs' a b :
  match combine2 ig refs a b, combine2 ig refs' a b with
  | Ok m, Ok m' => m = m' | Err x, Err x' => same_failure x x' | _, _ => False end.
Proof. unfold combine2. destruct (negb ig && clash a b); simpl; auto. Qed.

Section Verdict.
  Variables (e e' : env).
  Hypothesis Ign : c_ignore_incomp (e_cfg e) = c_ignore_incomp (e_cfg e').
  Hypothesis Bps : c_backports (e_cfg e) = c_backports (e_cfg e').
  Hypothesis Targets : targets_given (e_cfg e).
  Hypothesis Targets' : targets_given (e_cfg e').

  Lemma near_step o l c i o1 f1 o2 f2 s : near (u_info f1 (u_out o1 s)) (u_info f2 (u_out o2 (u_info i (u_out o (u_line l (u_lcs c s)))))).
  Proof. exists o2, l, c, f2. reflexivity. Qed.

  Lemma run_same l : forall m s s', near s s' -> same_verdict near (run_steps e l m s) (run_steps e' l m s').
  Proof.
    induction l as [|[v i ent|x] r IH]; intros m s s' N; cbn [run_steps].
    - split; [reflexivity|exact N].
    - destruct (add_versions_form e v i ent m s Targets) as (o1 & f1 & refs1 & ->).
      destruct (add_versions_form e' v i ent m s' Targets') as (o2 & f2 & refs2 & ->). rewrite <- Ign.
      pose proof (combine2_refs (c_ignore_incomp (e_cfg e)) refs1 refs2 m v) as C.
      destruct (combine2 _ refs1 m v) as [m1|x1], (combine2 _ refs2 m v) as [m2|x2]; cbn [bindr fst snd]; try contradiction.
      + subst m2. apply IH. destruct N as (o & l & c & j & ->). apply near_step.
      + exact C.
    - apply failure_refl.
  Qed.

  Lemma steps_same s s' : near s s' -> steps e s = steps e' s'.
  Proof. intros (o & l & c & i & ->). unfold steps, bps_of. rewrite Bps. reflexivity. Qed.

  Lemma near_like s s' : like s s' -> near s s'.
  Proof. intros (o & l & c & ->). exists o, l, c, (s_info s). destruct s; reflexivity. Qed.

  Lemma versions_same s s' : like s s' -> same_verdict near (minimum_versions e s) (minimum_versions e' s').
  Proof.
    intros L. unfold minimum_versions.
    assert (F : forall f, has_flag s' f = has_flag s f) by (intros f; destruct L as (o & l & c & ->); reflexivity).
    rewrite !F. rewrite <- (steps_same s s' (near_like _ _ L)).
    assert (P : forall g t, targets_given (e_cfg g) -> exists o, when (has_flag s FPrintV3)
        (verbose_print_v g 2 "print(expr)" None (Some (-1)) (Some (Some (2, 0), Some (3, 0))) None) t = Ok (u_out o t)).
    { intros g t T. destruct (has_flag s FPrintV3).
      - cbn [when]. destruct (print_ok g 2 "print(expr)" None (Some (-1)) (Some (Some (2, 0), Some (3, 0))) None t T) as (t' & E & o & ->).
        exists o. exact E.
      - exists (s_out t). destruct t; reflexivity. }
    destruct (P e s Targets) as (o1 & ->), (P e' s' Targets') as (o2 & ->). cbn [bindr]. apply run_same.
    destruct L as (o & l & c & ->). exists o2, l, c, (s_info s). destruct s; reflexivity.
  Qed.
End Verdict.

(** What the analysis of one parsed file says, apart from its text. *)
Definition same_result (r r' : res presult) : Prop :=
  match r, r' with
  | Ok a, Ok b => r_path a = r_path b /\ r_mins a = r_mins b /\ r_novermin a = r_novermin b /\ r_bps a = r_bps b /\ r_maybe a = r_maybe b
  | Err x, Err x' => x = x'
  | _, _ => False
  end.

Lemma file_same sd d d' c c' path source v v' nov how :
  same_analysis c c' -> targets_given c -> targets_given c' -> path_ok c path = true -> path_ok c' path = true -> erased nov v v' ->
  same_result (process_tree (mkHooks sd d) c path source v nov how) (process_tree (mkHooks sd d') c' path source v' nov how).
Proof.
  intros S T T' P P' E. unfold process_tree, make_visitor, py_assert. rewrite P, P'. cbn [bindr h_selfdoc h_dump].
  assert (M : same_result
    (letr s := tour (mkEnv c path (Some source) nov sd d) v in
     match minimum_versions (mkEnv c path (Some source) nov sd d) s with
     | Ok (m, s') => Ok (mkRes path (MVers m) (output_text (mkEnv c path (Some source) nov sd d) s') nov
                           (dedup (filter is_backport (s_modules s'))) (has_flag s' FMaybeAnnotations))
     | Err (InvalidVersion msg) => Ok (mkRes path MNone msg nov [] false)
     | Err x => Err x end)
    (letr s := tour (mkEnv c' path (Some source) nov sd d') v' in
     match minimum_versions (mkEnv c' path (Some source) nov sd d') s with
     | Ok (m, s') => Ok (mkRes path (MVers m) (output_text (mkEnv c' path (Some source) nov sd d') s') nov
                           (dedup (filter is_backport (s_modules s'))) (has_flag s' FMaybeAnnotations))
     | Err (InvalidVersion msg) => Ok (mkRes path MNone msg nov [] false)
     | Err x => Err x end)).
  { pose proof (tour_alike c c' path (Some source) nov sd d d' S T T' v v' E) as A.
    destruct (tour (mkEnv c path _ nov sd d) v) as [s|x], (tour (mkEnv c' path _ nov sd d') v') as [s'|x']; cbn in A; try contradiction.
    2: exact A.
    cbn [bindr]. destruct S as (_ & _ & Sb & _ & Si).
    pose proof (versions_same (mkEnv c path (Some source) nov sd d) (mkEnv c' path (Some source) nov sd d') Si Sb T T' s s' A) as V.
    destruct (minimum_versions _ s) as [[m t]|x], (minimum_versions _ s') as [[m' t']|x']; cbn in V; try contradiction.
    - destruct V as [<- (o & l & k & i & ->)]. cbn. auto.
    - destruct x, x'; try contradiction; try discriminate V; cbn; auto; try congruence. }
  destruct how; [exact M|cbn; auto|exact M|reflexivity].
Qed.

(** *** From syntax trees to files, runs and the API *)

(** The text of a syntax error has no newline in it. *)
Definition single_line (p : parsed) : Prop :=
  forall e t, (p = PErr (PeSyntax e) \/ exists node, p = PTree node (inl (PeSyntax e))) -> se_text e = Some t ->
  ~ In (ascii_of_nat 10) (list_ascii_of_string (strip t)).

Lemma escape_none s : ~ In (ascii_of_nat 10) (list_ascii_of_string s) -> escape_nl s = s.
Proof.
  induction s as [|a s IH]; intros N; [reflexivity|]. rewrite escape_cons. cbn [list_ascii_of_string In] in N.
  destruct (Ascii.eqb a (ascii_of_nat 10)) eqn:E.
  - exfalso. apply N. left. apply Ascii.eqb_eq, E.
  - rewrite IH; [reflexivity|]. intros I. apply N. right. exact I.
Qed.

Lemma syntax_same major c c' e : same_reading c c' ->
  c_format c = c_format c' \/ (forall t, se_text e = Some t -> ~ In (ascii_of_nat 10) (list_ascii_of_string (strip t))) ->
  fst (syntax_verdict major c e) = fst (syntax_verdict major c' e).
Proof.
  intros (_ & _ & P) [Fm|N]; unfold syntax_verdict.
  { rewrite <- P, <- Fm. destruct (contains _ _); [reflexivity|]. destruct (_ && _); reflexivity. }
  assert (T : forall b : bool, (if b then escape_nl (match se_text e with Some t => strip t | None => "" end)
                         else match se_text e with Some t => strip t | None => "" end)
              = match se_text e with Some t => strip t | None => "" end).
  { intros b. destruct b; [|reflexivity]. destruct (se_text e) as [t|]; [|reflexivity]. apply escape_none, (N t eq_refl). }
  rewrite !T, <- P. destruct (contains _ _); [reflexivity|]. destruct (_ && _); [reflexivity|]. reflexivity.
Qed.

Inductive detected_same : detected -> detected -> Prop :=
| ds_tree v nov : detected_same (DTree v nov) (DTree v nov)
| ds_verdict m o o' : detected_same (DVerdict m o) (DVerdict m o')
| ds_exn x : (forall e, x <> PeSyntax e) -> detected_same (DExn x) (DExn x).

Lemma parser_same major c c' p : same_reading c c' -> c_format c = c_format c' \/ single_line p ->
  detected_same (parser_detect major c p) (parser_detect major c' p).
Proof.
  intros S N. unfold parser_detect.
  assert (X : forall x, (p = PErr x \/ exists node, p = PTree node (inl x)) ->
    detected_same match x with PeSyntax se => let (m, out) := syntax_verdict major c se in DVerdict m out | _ => DExn x end
      match x with PeSyntax se => let (m, out) := syntax_verdict major c' se in DVerdict m out | _ => DExn x end).
  { intros x Px. destruct x as [se| | | |t]; try (constructor; discriminate).
    pose proof (syntax_same major c c' se S) as Y.
    destruct (syntax_verdict major c se) as [m o], (syntax_verdict major c' se) as [m' o']. cbn in Y.
    rewrite <- Y; [constructor|]. destruct N as [N|N]; [left; exact N|right]. intros t T. apply (N se t Px T). }
  destruct p as [x|node toks]; [apply X; left; reflexivity|].
  destruct S as (_ & <- & _). destruct (c_parse_comments c); [|constructor].
  destruct toks as [x|l]; [apply X; right; eauto|constructor].
Qed.

Definition same_work (r r' : res (option presult)) : Prop :=
  match r, r' with
  | Ok None, Ok None => True
  | Ok (Some a), Ok (Some b) => same_result (Ok a) (Ok b)
  | Err x, Err x' => x = x'
  | _, _ => False
  end.

Lemma individual_same sd d d' major c c' path f how :
  same_reading c c' -> targets_given c -> targets_given c' -> path_ok c path = true -> path_ok c' path = true ->
  (forall source p, f = FcSource source p -> c_format c = c_format c' \/ single_line p) ->
  same_work (snd (process_individual (mkHooks sd d) major c path f how)) (snd (process_individual (mkHooks sd d') major c' path f how)).
Proof.
  intros S T T' P P' N. unfold process_individual.
  assert (X : forall x,
    same_work match x with PeInterrupt => Ok (Some (mkRes path MNone "" [] [] false)) | PeValue | PeType => Ok None
       | PeOther t => Ok (Some (mkRes path (MVers zero_mins) (path +++ ": " +++ t) [] [] false)) | PeSyntax _ => Ok None end
     match x with PeInterrupt => Ok (Some (mkRes path MNone "" [] [] false)) | PeValue | PeType => Ok None
       | PeOther t => Ok (Some (mkRes path (MVers zero_mins) (path +++ ": " +++ t) [] [] false)) | PeSyntax _ => Ok None end).
  { intros [se| | | |t]; cbn; auto. }
  assert (W : how <> EndAbort -> same_work (snd match f with
    | FcErr x => ([], match x with PeInterrupt => Ok (Some (mkRes path MNone "" [] [] false)) | PeValue | PeType => Ok None
       | PeOther t => Ok (Some (mkRes path (MVers zero_mins) (path +++ ": " +++ t) [] [] false)) | PeSyntax _ => Ok None end)
    | FcSource source p => match parser_detect major c p with
      | DExn x => ([], match x with PeInterrupt => Ok (Some (mkRes path MNone "" [] [] false)) | PeValue | PeType => Ok None
       | PeOther t => Ok (Some (mkRes path (MVers zero_mins) (path +++ ": " +++ t) [] [] false)) | PeSyntax _ => Ok None end)
      | DVerdict m printed => (printed, Ok (Some (mkRes path (MVers m) "" [] [] false)))
      | DTree node nov => ([], mapr Some (process_tree (mkHooks sd d) c path source node nov how)) end end)
    (snd match f with
    | FcErr x => ([], match x with PeInterrupt => Ok (Some (mkRes path MNone "" [] [] false)) | PeValue | PeType => Ok None
       | PeOther t => Ok (Some (mkRes path (MVers zero_mins) (path +++ ": " +++ t) [] [] false)) | PeSyntax _ => Ok None end)
    | FcSource source p => match parser_detect major c' p with
      | DExn x => ([], match x with PeInterrupt => Ok (Some (mkRes path MNone "" [] [] false)) | PeValue | PeType => Ok None
       | PeOther t => Ok (Some (mkRes path (MVers zero_mins) (path +++ ": " +++ t) [] [] false)) | PeSyntax _ => Ok None end)
      | DVerdict m printed => (printed, Ok (Some (mkRes path (MVers m) "" [] [] false)))
      | DTree node nov => ([], mapr Some (process_tree (mkHooks sd d') c' path source node nov how)) end end)).
  { intros _. destruct f as [x|source p]; [apply X|].
    destruct (parser_same major c c' p S (N source p eq_refl)) as [v nov|m o o'|x _]; [|cbn; auto|apply X].
    cbn [snd]. pose proof (file_same sd d d' c c' path source v v nov how (proj1 S) T T' P P' (er_same _ _)) as F.
    destruct (process_tree _ c path source v nov how), (process_tree _ c' path source v nov how); cbn in F; try contradiction; exact F. }
  destruct how; try (apply W; discriminate). reflexivity.
Qed.

Definition same_agg (a b : agg) : Prop :=
  a_mins a = a_mins b /\ a_incomp a = a_incomp b /\ a_unique a = a_unique b /\ a_bps a = a_bps b /\ a_novm a = a_novm b /\
  a_maybe a = a_maybe b.

Lemma loop_same c c' rs rs' : c_ignore_incomp c = c_ignore_incomp c' -> Forall2 same_work rs rs' -> forall a b, same_agg a b ->
  same_agg (fst (agg_loop c rs a)) (fst (agg_loop c' rs' b)) /\ snd (agg_loop c rs a) = snd (agg_loop c' rs' b).
Proof.
  intros Ig F. induction F as [|r r' rs rs' W F IH]; intros a b S; cbn [agg_loop]; [split; [exact S|reflexivity]|].
  destruct r as [[r|]|x], r' as [[r'|]|x']; cbn in W; try contradiction.
  - destruct W as (W1 & W2 & W3 & W4 & W5).
    assert (St : match agg_step c (Some r) a, agg_step c' (Some r') b with
                 | Ok a', Ok b' => same_agg a' b' | Err x, Err x' => x = x' | _, _ => False end).
    { cbn [agg_step]. rewrite <- W2. destruct S as (S1 & S2 & S3 & S4 & S5 & S6). destruct (r_mins r) as [| |m].
      - cbn. repeat split; assumption.
      - reflexivity.
      - rewrite <- Ig, <- S1, <- S2, <- S3, <- S4, <- S5, <- S6, <- W3, <- W4, <- W5.
        destruct (combine2 _ None (a_mins a) m) as [m'|x]; [cbn; repeat split; reflexivity|].
        destruct x; cbn; repeat split; reflexivity. }
    destruct (agg_step c (Some r) a), (agg_step c' (Some r') b); cbn in St; try contradiction.
    + apply IH, St.
    + subst. cbn. split; [exact S|reflexivity].
  - cbn [agg_step]. apply IH, S.
  - subst x'. cbn. split; [exact S|reflexivity].
Qed.

Lemma run_same_summary sd d d' major c c' file how processes paths :
  same_reading c c' -> targets_given c -> targets_given c' ->
  (forall p, In p paths -> path_ok c p = true /\ path_ok c' p = true) ->
  (forall path source p, In path paths -> file path = FcSource source p -> c_format c = c_format c' \/ single_line p) ->
  snd (process (mkHooks sd d) major c file how processes paths) = snd (process (mkHooks sd d') major c' file how processes paths).
Proof.
  intros S T T' P N. unfold process.
  set (rs := map (fun p => snd (process_individual (mkHooks sd d) major c p (file p) (how p))) paths).
  set (rs' := map (fun p => snd (process_individual (mkHooks sd d') major c' p (file p) (how p))) paths).
  assert (W : Forall2 same_work rs rs').
  { subst rs rs'. clear - S T T' P N. induction paths as [|p r IH]; cbn [map]; constructor.
    - destruct (P p (or_introl eq_refl)) as [P1 P2]. apply individual_same; auto. intros source q E. exact (N p source q (or_introl eq_refl) E).
    - apply IH; [intros q I; apply P; right; exact I|]. intros q source z I. apply N. right. exact I. }
  assert (Ig : c_ignore_incomp c = c_ignore_incomp c') by apply S.
  assert (L : same_agg (fst (run_results c processes rs)) (fst (run_results c' processes rs')) /\
              snd (run_results c processes rs) = snd (run_results c' processes rs')).
  { assert (E : first_err rs = first_err rs').
    { clear - W. induction W as [|r r' rs rs' A W IH]; [reflexivity|]. unfold first_err in *. cbn [fold_right].
      destruct r as [[r|]|x], r' as [[r'|]|x']; cbn in A; try contradiction; try exact IH. congruence. }
    assert (R : same_agg agg_init agg_init) by (repeat split).
    unfold run_results. rewrite <- E. destruct (processes =? 1).
    - destruct (first_err rs); [split; [exact R|reflexivity]|]. exact (loop_same c c' rs rs' Ig W _ _ R).
    - destruct (processes <? 1); [split; [exact R|reflexivity]|]. exact (loop_same c c' rs rs' Ig W _ _ R). }
  destruct (run_results c processes rs) as [a o], (run_results c' processes rs') as [b o']. cbn [fst snd] in L.
  destruct L as [(L1 & L2 & L3 & L4 & L5 & L6) <-].
  assert (Q : summary_of a = summary_of b) by (unfold summary_of; rewrite L1, L2, L3, L4, L5, L6; reflexivity).
  destruct o as [x|]; [|cbn; rewrite Q; reflexivity]. destruct x; cbn; rewrite ?Q; reflexivity.
Qed.

Definition same_mins (r r' : res mins) : Prop :=
  match r, r' with Ok m, Ok m' => m = m' | Err x, Err x' => same_failure x x' | _, _ => False end.

Lemma detect_same sd d d' major c c' path source p :
  same_reading c c' -> targets_given c -> targets_given c' -> path_ok c (api_path path) = true -> path_ok c' (api_path path) = true ->
  c_format c = c_format c' \/ single_line p ->
  same_mins (api_detect (mkHooks sd d) major c path source p) (api_detect (mkHooks sd d') major c' path source p).
Proof.
  intros S T T' P P' N. unfold api_detect, api_visit.
  destruct (parser_same major c c' p S N) as [v nov|m o o'|x _]; [|cbn; auto|cbn; apply failure_refl].
  unfold make_visitor, py_assert. rewrite P, P'. cbn [bindr h_selfdoc h_dump].
  pose proof (tour_alike c c' (api_path path) (Some source) nov sd d d' (proj1 S) T T' v v (er_same _ _)) as A.
  set (e := mkEnv c (api_path path) (Some source) nov sd d) in *. set (e' := mkEnv c' (api_path path) (Some source) nov sd d') in *.
  destruct (tour e v) as [s|x], (tour e' v) as [s'|x']; cbn in A; try contradiction; cbn [bindr]; [|cbn; subst; apply failure_refl].
  destruct (proj1 S) as (_ & _ & Sb & _ & Si).
  pose proof (versions_same e e' Si Sb T T' s s' A) as V.
  destruct (minimum_versions e s) as [[m t]|x] eqn:M, (minimum_versions e' s') as [[m' t']|x'] eqn:M'; cbn in V; try contradiction; cbn [bindr snd].
  - destruct V as [<- _].
    destruct (minimum_versions_again e s m t M) as (t2 & -> & _), (minimum_versions_again e' s' m t' M') as (t2' & -> & _). reflexivity.
  - exact V.
Qed.
