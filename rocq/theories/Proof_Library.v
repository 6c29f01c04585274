(** The library functions and the program. Lemmas for C81. *)
From Verif Require Import PyBase PyLemmas Utility RulesData Rules Config Formats Paths AstKinds Ast State Visitor MinVersions
  Parser Detection Arguments Processor Main Spec_Base Spec_Utility Spec_Config Spec_Visitor Spec_MinVersions Spec_Main Spec_Same Spec_Valid Spec_Targets Spec_Detection Spec_Library
  Proof_MinVersions Proof_Detection Proof_Formats Proof_Strings Proof_Anywhere Proof_Same Proof_Verdict Proof_Main Proof_Valid Proof_Reading Prop_Main Prop_Targets.

(** ** Verdicts that do not depend on the name of the file *)
Definition same_versions {A B} (r : res (mins * A)) (r' : res (mins * B)) : Prop :=
  match r, r' with Ok (m, _), Ok (m', _) => m = m' | Err x, Err x' => same_failure x x' | _, _ => False end.
Lemma run_anywhere e e' l : c_ignore_incomp (e_cfg e) = c_ignore_incomp (e_cfg e') -> targets_given (e_cfg e) -> targets_given (e_cfg e') ->
  forall m s s', same_versions (run_steps e l m s) (run_steps e' l m s').
Proof.
  intros Ig T T'. induction l as [|[v i ent|x] r IH]; intros m s s'; cbn [run_steps].
  - reflexivity.
  - destruct (add_versions_form e v i ent m s T) as (o1 & f1 & refs1 & ->), (add_versions_form e' v i ent m s' T') as (o2 & f2 & refs2 & ->). rewrite <- Ig.
    pose proof (combine2_refs (c_ignore_incomp (e_cfg e)) refs1 refs2 m v) as C.
    destruct (combine2 _ refs1 m v) as [m1|x1], (combine2 _ refs2 m v) as [m2|x2]; cbn [bindr fst snd]; try contradiction; [subst m2; apply IH|exact C].
  - apply failure_refl.
Qed.
Lemma versions_anywhere e e' s s' : e_cfg e = e_cfg e' -> targets_given (e_cfg e) -> Proof_Anywhere.like s s' ->
  same_versions (minimum_versions e s) (minimum_versions e' s').
Proof.
  intros Ec T (o & l & k & g & G & ->). assert (T' : targets_given (e_cfg e')) by (rewrite <- Ec; exact T).
  set (s' := u_out o _).
  assert (F : forall f, told f = true -> has_flag s' f = has_flag s f) by (intros f X; symmetry; exact (G f X)).
  assert (St : steps e' s' = steps e s).
  { unfold steps. f_equal; [|unfold bps_of; rewrite Ec; reflexivity].
    assert (X : forallb (fun fvi => told (fst (fst fvi))) flag_table = true) by (vm_compute; reflexivity).
    rewrite forallb_forall in X. clear - F X. induction flag_table as [|[[f v] i] r IH]; [reflexivity|].
    cbn [flat_map]. rewrite (F f (X (f, v, i) (or_introl eq_refl))). f_equal. apply IH. intros y I. apply X. right. exact I. }
  unfold minimum_versions. rewrite St, !F by reflexivity.
  assert (P : forall b g t, targets_given (e_cfg g) -> exists o, when b
      (verbose_print_v g 2 "print(expr)" None (Some (-1)) (Some (Some (2, 0), Some (3, 0))) None) t = Ok (u_out o t)).
  { intros b h t X. destruct b; [|exists (s_out t); destruct t; reflexivity].
    cbn [when]. destruct (print_ok h 2 "print(expr)" None (Some (-1)) (Some (Some (2, 0), Some (3, 0))) None t X) as (t' & E & o1 & ->). exists o1. exact E. }
  destruct (P (has_flag s FPrintV3) e s T) as (o1 & ->), (P (has_flag s FPrintV3) e' s' T') as (o2 & ->). cbn [bindr].
  apply run_anywhere; [rewrite Ec; reflexivity|exact T|exact T'].
Qed.

(** ** Asked with another path *)
Lemma parser_moved major c c' p p' : same_reading c c' -> c_format c = c_format c' -> same_parse p p' ->
  detected_same (parser_detect major c p) (parser_detect major c' p').
Proof.
  intros S F P.
  assert (X : forall x x', same_error x x' ->
    detected_same match x with PeSyntax se => let (m, out) := syntax_verdict major c se in DVerdict m out | _ => DExn x end
      match x' with PeSyntax se => let (m, out) := syntax_verdict major c' se in DVerdict m out | _ => DExn x' end).
  { assert (Y : forall t m f f' l o, fst (syntax_verdict major c (mkSyn t m f l o)) = fst (syntax_verdict major c' (mkSyn t m f' l o))).
    { intros t m f f' l o. unfold syntax_verdict. cbn [se_text se_msg se_filename se_lineno se_offset]. rewrite <- F. destruct S as (_ & _ & <-).
      destruct (contains _ _); [reflexivity|]. destruct (_ && _); reflexivity. }
    intros x x' [t m f f' l o|y].
    - specialize (Y t m f f' l o). destruct (syntax_verdict major c _) as [a b], (syntax_verdict major c' _) as [a' b']. cbn [fst] in Y. rewrite Y. constructor.
    - destruct y as [[t m f l o]| | | |t]; try (constructor; discriminate).
      specialize (Y t m f f l o). destruct (syntax_verdict major c _) as [a b], (syntax_verdict major c' _) as [a' b']. cbn [fst] in Y. rewrite Y. constructor. }
  unfold parser_detect. destruct P as [x x' E|v x x' E|v l]; [apply X; exact E| |]; destruct S as (_ & <- & _); destruct (c_parse_comments c);
    try constructor. apply X. exact E.
Qed.
Lemma failure_trans x y z : same_failure x y -> same_failure y z -> same_failure x z.
Proof. destruct x, y, z; cbn; intros; congruence || exact I. Qed.
Lemma mins_trans a b c : same_mins a b -> same_mins b c -> same_mins a c.
Proof. destruct a, b, c; cbn; try contradiction; [congruence|apply failure_trans]. Qed.
Lemma detect_moved sd d d' major c path path' source p p' : targets_given c -> path_ok c (api_path path) = true -> path_ok c (api_path path') = true -> same_parse p p' ->
  same_mins (api_detect (mkHooks sd d) major c path source p) (api_detect (mkHooks sd d') major c path' source p').
Proof.
  intros T P P' N. unfold api_detect, api_visit.
  destruct (parser_moved major c c p p') as [v nov|m o o'|x _]; [repeat split; auto|reflexivity|exact N| |cbn; auto|cbn; apply failure_refl].
  unfold make_visitor, py_assert. rewrite P, P'. cbn [bindr h_selfdoc h_dump].
  pose proof (tour_anywhere c (api_path path) (api_path path') (Some source) nov sd d d' T v) as A.
  set (e := mkEnv c (api_path path) (Some source) nov sd d) in *. set (e' := mkEnv c (api_path path') (Some source) nov sd d') in *.
  destruct (tour e v) as [s|x], (tour e' v) as [s'|x']; cbn in A; try contradiction; cbn [bindr]; [|cbn; subst; apply failure_refl].
  pose proof (versions_anywhere e e' s s' eq_refl T A) as V.
  destruct (minimum_versions e s) as [[m t]|x] eqn:M, (minimum_versions e' s') as [[m' t']|x'] eqn:M'; cbn in V; try contradiction; cbn [bindr snd].
  - subst m'. destruct (minimum_versions_again e s m t M) as (t2 & -> & _), (minimum_versions_again e' s' m t' M') as (t2' & -> & _). reflexivity.
  - exact V.
Qed.
Lemma detect_config sd d d' major c c' path source p : same_reading c c' -> c_format c = c_format c' -> targets_given c -> targets_given c' ->
  path_ok c (api_path path) = true ->
  same_mins (api_detect (mkHooks sd d) major c path source p) (api_detect (mkHooks sd d') major c' path source p).
Proof.
  intros S Fm T T' P. assert (P' : path_ok c' (api_path path) = true) by (unfold path_ok in *; rewrite <- Fm; exact P). unfold api_detect, api_visit.
  destruct (parser_moved major c c' p p) as [v nov|m o o'|x _]; [exact S|exact Fm|destruct p as [x|v [x|l]]; constructor; constructor| |cbn; auto|cbn; apply failure_refl].
  unfold make_visitor, py_assert. rewrite P, P'. cbn [bindr h_selfdoc h_dump].
  pose proof (tour_alike c c' (api_path path) (Some source) nov sd d d' (proj1 S) T T' v v (er_same _ _)) as A.
  set (e := mkEnv c (api_path path) (Some source) nov sd d) in *. set (e' := mkEnv c' (api_path path) (Some source) nov sd d') in *.
  destruct (tour e v) as [s|x], (tour e' v) as [s'|x']; cbn in A; try contradiction; cbn [bindr]; [|cbn; subst; apply failure_refl].
  destruct (proj1 S) as (_ & _ & Sb & _ & Si).
  pose proof (versions_same e e' Si Sb T T' s s' A) as V.
  destruct (minimum_versions e s) as [[m t]|x] eqn:M, (minimum_versions e' s') as [[m' t']|x'] eqn:M'; cbn in V; try contradiction; cbn [bindr snd].
  - destruct V as [<- _].
    destruct (minimum_versions_again e s m t M) as (t2 & -> & _), (minimum_versions_again e' s' m t' M') as (t2' & -> & _). reflexivity.
  - exact V.
Qed.

(** ** Asked of the library or of the program *)
Lemma program_agrees h major c path source p : due_to_text p ->
  agree (api_detect h major c (Some path) source p) (snd (process_individual h major c path (FcSource source p) EndDone)).
Proof.
  intros C. unfold api_detect, api_visit, process_individual.
  assert (X : forall x, (p = PErr x \/ exists v, p = PTree v (inl x)) -> (forall se, x <> PeSyntax se) -> parser_detect major c p = DExn x ->
     agree (letr v := match parser_detect major c p with
       | DExn x => Err (exn_of x) | DVerdict m _ => Ok (inl m)
       | DTree node nov => letr e := make_visitor h c (api_path (Some path)) source nov in letr s := tour e node in letr ms := minimum_versions e s in Ok (inr (e, snd ms)) end in
       match v with inl m => Ok m | inr (e, s) => mapr fst (minimum_versions e s) end)
      (snd match parser_detect major c p with
       | DExn x => ([], match x with PeInterrupt => Ok (Some (mkRes path MNone "" [] [] false)) | PeValue | PeType => Ok None
          | PeOther t => Ok (Some (mkRes path (MVers zero_mins) (path +++ ": " +++ t) [] [] false)) | PeSyntax _ => Ok None end)
       | DVerdict m printed => (printed, Ok (Some (mkRes path (MVers m) "" [] [] false)))
       | DTree node nov => ([], mapr Some (process_tree h c path source node nov EndDone)) end)).
  { intros x Px Ns D. rewrite D. cbn [bindr snd]. destruct (C x Px) as [N1 N2]. destruct x as [se| | | |t]; cbn [exn_of]; try congruence.
    all: try solve [exfalso; eapply Ns; reflexivity | exfalso; eapply N2; reflexivity].
    - apply ag_ignored. left. reflexivity.
    - apply ag_ignored. right. reflexivity. }
  destruct (parser_detect major c p) as [node nov|m o|x] eqn:D.
  - cbn [snd api_path]. unfold process_tree. destruct (make_visitor h c path source nov) as [e|x]; cbn [bindr mapr]; [|apply ag_failed].
    destruct (tour e node) as [s|x]; cbn [bindr mapr]; [|apply ag_failed].
    destruct (minimum_versions e s) as [[m t]|x] eqn:M; cbn [bindr snd].
    + destruct (minimum_versions_again e s m t M) as (t2 & -> & _). cbn [mapr bindr]. apply ag_verdict. reflexivity.
    + destruct x; cbn [mapr bindr]; try apply ag_failed. apply ag_clash; reflexivity.
  - cbn [bindr snd]. apply ag_verdict. reflexivity.
  - rewrite <- D in *. unfold parser_detect in D. destruct p as [y|v [y|l]].
    + apply (X y); [left; reflexivity| |]; destruct y; try (intros se E; discriminate E); try reflexivity;
        exfalso; destruct (syntax_verdict major c se); discriminate D.
    + unfold parser_detect in X |- *. destruct (c_parse_comments c); [|discriminate D]. apply (X y); [right; exists v; reflexivity| |]; destruct y; try (intros se E; discriminate E); try reflexivity;
        exfalso; destruct (syntax_verdict major c se); discriminate D.
    + destruct (c_parse_comments c); discriminate D.
Qed.

(** ** Runs *)
Lemma says_iff sd d d' major c c' file p : same_reading c c' -> c_format c = c_format c' -> targets_given c -> targets_given c' -> path_ok c' p = true -> forall m,
  library_says (mkHooks sd d) major c file p m <-> exists source t, file p = FcSource source t /\ api_detect (mkHooks sd d') major c' (Some p) source t = Ok m.
Proof.
  intros S Fm T T' P m. assert (Pc : path_ok c p = true) by (unfold path_ok in *; rewrite Fm; exact P). split.
  - intros (source & t & q & t' & Fp & St & Pq & E). exists source, t. split; [exact Fp|].
    assert (X : same_mins (api_detect (mkHooks sd d) major c (Some p) source t) (api_detect (mkHooks sd d) major c q source t')).
    { apply detect_moved; auto. }
    assert (Y : same_mins (api_detect (mkHooks sd d) major c (Some p) source t) (api_detect (mkHooks sd d') major c' (Some p) source t)).
    { apply detect_config; auto. }
    rewrite E in X. unfold same_mins in *. destruct (api_detect _ _ c (Some p) _ _); [subst|contradiction]. destruct (api_detect _ _ c' _ _ _); [subst; reflexivity|contradiction].
  - intros (source & t & Fp & E). exists source, t, (Some p), t. split; [exact Fp|]. split; [destruct t as [x|v [x|l]]; constructor; constructor|]. split; [exact Pc|].
    assert (Y : same_mins (api_detect (mkHooks sd d) major c (Some p) source t) (api_detect (mkHooks sd d') major c' (Some p) source t)).
    { apply detect_config; auto. }
    rewrite E in Y. unfold same_mins in Y. destruct (api_detect _ _ c _ _ _); [subst; reflexivity|contradiction].
Qed.

(** What the result of any file has to do with the library. *)
Lemma result_says h major c file p r : snd (process_individual h major c p (file p) EndDone) = Ok (Some r) ->
  r_mins r <> MEmpty /\
  (forall m, r_mins r = MVers m -> m = zero_mins \/ exists source t, file p = FcSource source t /\ api_detect h major c (Some p) source t = Ok m).
Proof.
  intros H. destruct (file p) as [x|source t] eqn:F; revgoals.
  - destruct (parser_detect major c t) as [node nov|m o|y] eqn:Pd.
    1,2: split; [|intros m0 E; right; exists source, t; split; [reflexivity|]];
      unfold api_detect, api_visit; unfold process_individual in H; rewrite Pd in *; cbn [snd] in H.
    + unfold process_tree in H. destruct (make_visitor h c p source nov) as [e|z]; cbn [bindr mapr] in H; [|discriminate]. destruct (tour e node) as [s|z]; cbn [bindr mapr] in H; [|discriminate].
      destruct (minimum_versions e s) as [[a b]|z]; [cbn [mapr bindr] in H; injection H as <-; discriminate|]. destruct z; cbn [mapr bindr] in H; try discriminate. injection H as <-. discriminate.
    + cbn [api_path]. unfold process_tree in H. destruct (make_visitor h c p source nov) as [e|z]; cbn [bindr mapr] in *; [|discriminate]. destruct (tour e node) as [s|z]; cbn [bindr mapr] in *; [|discriminate].
      destruct (minimum_versions e s) as [[a b]|z] eqn:M; [cbn [mapr bindr snd] in *|destruct z; cbn [mapr bindr] in H; try discriminate; injection H as <-; discriminate E].
      injection H as <-. cbn [r_mins] in E. injection E as <-. destruct (minimum_versions_again e s a b M) as (t2 & -> & _). reflexivity.
    + injection H as <-. discriminate.
    + injection H as <-. cbn [r_mins] in E. injection E as <-. reflexivity.
    + unfold process_individual in H. rewrite Pd in H. cbn [snd] in H. clear Pd. destruct y; cbn [snd] in H; try discriminate; injection H as <-; cbn [r_mins]; (split; [discriminate|]); intros m E; try discriminate; injection E as <-; left; reflexivity.
  - unfold process_individual in H. destruct x; cbn [snd] in H; try discriminate; injection H as <-; cbn [r_mins]; (split; [discriminate|]); intros m E; try discriminate; injection E as <-; left; reflexivity.
Qed.

Lemma run_among sd d d' major c c' file files rs : same_reading c c' -> c_format c = c_format c' -> targets_given c -> targets_given c' ->
  (forall p, In p files -> path_ok c' p = true) -> analysed (mkHooks sd d') major c' file (fun _ => EndDone) files rs ->
  toured rs /\ (forall m, verdict_in rs m -> m = zero_mins \/ library_among (mkHooks sd d) major c file files m) /\
  (forall m, library_among (mkHooks sd d) major c file files m -> verdict_in rs m).
Proof.
  intros S Fm T T' P A.
  assert (R : forall r, In (Some r) rs -> exists p, In p files /\ snd (process_individual (mkHooks sd d') major c' p (file p) EndDone) = Ok (Some r)).
  { clear P. induction A as [|p o l ro H A IH]; intros r I; [contradiction|]. destruct I as [->|I]; [exists p; split; [left; reflexivity|exact H]|].
    destruct (IH r I) as (q & Iq & Hq). exists q. split; [right; exact Iq|exact Hq]. }
  assert (L : forall p, In p files -> exists o, In o rs /\ snd (process_individual (mkHooks sd d') major c' p (file p) EndDone) = Ok o).
  { clear P R. induction A as [|p o l ro H A IH]; intros q I; [contradiction|]. destruct I as [->|I]; [exists o; split; [left; reflexivity|exact H]|].
    destruct (IH q I) as (o' & Io & Ho). exists o'. split; [right; exact Io|exact Ho]. }
  split; [|split].
  - intros r I. destruct (R r I) as (p & _ & H). apply (result_says _ _ _ _ _ _ H).
  - intros m (r & I & E). destruct (R r I) as (p & Ip & H). destruct (proj2 (result_says _ _ _ _ _ _ H) m E) as [->|X]; [left; reflexivity|right].
    exists p. split; [exact Ip|]. eapply says_iff; eauto.
  - intros m (p & Ip & Sy). destruct (proj1 (says_iff sd d d' major c c' file p S Fm T T' (P p Ip) m) Sy) as (source & t & Fp & E).
    destruct (L p Ip) as (o & Io & H). rewrite Fp in H.
    unfold api_detect, api_visit in E. unfold process_individual in H. destruct (parser_detect major c' t) as [node nov|m' out|x]; [|cbn [snd bindr] in *; injection H as <-; injection E as <-; eexists; split; [exact Io|reflexivity]|discriminate E].
    cbn [api_path snd] in *. unfold process_tree in H. destruct (make_visitor _ _ _ _ _) as [e|z]; cbn [bindr mapr] in *; [|discriminate]. destruct (tour e node) as [s|z]; cbn [bindr mapr] in *; [|discriminate].
    destruct (minimum_versions e s) as [[a b]|z] eqn:M; cbn [bindr snd mapr] in *; [|discriminate].
    destruct (minimum_versions_again e s a b M) as (t2 & M2 & _). rewrite M2 in E. cbn [mapr bindr fst] in E. injection E as <-. injection H as <-. eexists. split; [exact Io|reflexivity].
Qed.

Lemma zero_clashes m : ~ clashing zero_mins m /\ ~ clashing m zero_mins.
Proof. split; intros [[A B]|[A B]]; unfold py2_only, py3_only, zero_mins in *; cbn [fst snd] in *; firstorder discriminate. Qed.

Lemma undisturbed h major c file how files rs : (forall p, In p files -> how p = EndDone) ->
  analysed h major c file how files rs -> analysed h major c file (fun _ => EndDone) files rs.
Proof.
  intros W A. unfold analysed in *. revert W. induction A as [|p o l ro H A IH]; intros W; constructor; [rewrite <- (W p (or_introl eq_refl)); exact H|].
  apply IH. intros q I. apply W. right. exact I.
Qed.
Lemma run_join sd d d' major c c' file how files rs n : same_reading c c' -> c_format c = c_format c' -> targets_given c -> targets_given c' ->
  (forall p, In p files -> path_ok c' p = true) -> (forall p, In p files -> how p = EndDone) -> analysed (mkHooks sd d') major c' file how files rs -> 1 <= n ->
  (c_ignore_incomp c = true \/ forall a b, library_among (mkHooks sd d) major c file files a -> library_among (mkHooks sd d) major c file files b -> ~ clashing a b) ->
  exists out s, process (mkHooks sd d') major c' file how n files = (out, Ok s) /\ is_join_of (library_among (mkHooks sd d) major c file files) (m_mins s).
Proof.
  intros S Fm T T' P W A0 N C.
  assert (A : analysed (mkHooks sd d') major c' file (fun _ => EndDone) files rs).
  { eapply undisturbed; eassumption. }
  destruct (run_among sd d d' major c c' file files rs S Fm T T' P A) as (To & V & L).
  assert (Cb : combinable c' rs).
  { destruct C as [C|C]; [left; destruct S as ((_ & _ & _ & _ & <-) & _); exact C|right]. intros a b Ha Hb X.
    destruct (V a Ha) as [->|La]; [exact (proj1 (zero_clashes b) X)|]. destruct (V b Hb) as [->|Lb]; [exact (proj2 (zero_clashes a) X)|]. exact (C a b La Lb X). }
  destruct (c51_summary _ _ _ _ _ _ _ _ A0 To N Cb) as (out & s & E & (J0 & J1 & J2) & _). exists out, s. split; [exact E|].
  split; [exact J0|]. split; [intros m Lm; apply J1, L, Lm|]. intros u U0 U. apply J2; [exact U0|]. intros m Vm. destruct (V m Vm) as [->|Lm]; [exact U0|apply U, Lm].
Qed.

Lemma found_ok w c fuel paths files p : isabs (w_cwd w) = true -> found_files w c fuel paths = Some (Ok files) -> In p files -> path_ok c p = true.
Proof.
  intros Cw F I. unfold path_ok. destruct (c_format c) eqn:Fm; try reflexivity. cbn [fmt_eqb negb orb].
  destruct (found_clean w c fuel paths files Cw Fm F p I) as [A B].
  assert (N : forall ch, no_char ch p -> contains (String ch "") p = false).
  { intros ch H. destruct (contains (String ch "") p) eqn:E; [|reflexivity]. apply contains_iff in E as (a & b & E). destruct (H a b E). }
  change nl with (String (ascii_of_nat 10) ""). rewrite (N _ A), (N _ B). reflexivity.
Qed.

Lemma main_library w fuel args c paths versions printed files rs : 0 < w_cpus w -> isabs (w_cwd w) = true -> w_major w <> 2 ->
  parse (w_cpus w) (w_re_ok w) (w_excl_file w) (w_cwd w) (w_cfg_file w) (w_detected w) args (default_config (w_cpus w))
    = Ok (c, OPaths paths versions printed) ->
  found_files w c fuel paths = Some (Ok files) -> (forall p, In p files -> w_ending w p = EndDone) ->
  analysed (w_hooks w) (w_major w) (local_config c) (w_file w) (w_ending w) files rs ->
  let among := library_among (w_hooks w) (w_major w) c (w_file w) files in
  c_ignore_incomp c = true \/ (forall a b, among a -> among b -> ~ clashing a b) ->
  exists out code m, main w fuel args = Some (out, Ok code) /\ (code = 0 \/ code = 1) /\ is_join_of among m /\ (code = 0 <-> files <> [] /\ passes c m).
Proof.
  intros Cp Cw M P F W A among C. destruct (w_hooks w) as [sd d] eqn:Hk.
  assert (V : valid (w_re_ok w) c) by (eapply parse_valid; [exact Cp|exact P|apply v_default; exact Cp]).
  assert (T : targets_given c) by (intros X; apply (proj1 (parse_settled _ _ _ _ _ _ _ _ _ _ _ _ P) X)).
  assert (Q : same_reading c (local_config c) /\ c_format c = c_format (local_config c) /\ targets_given (local_config c) /\ c_processes (local_config c) = c_processes c).
  { unfold local_config. destruct (_ && _); (split; [repeat split; auto|]); (split; [reflexivity|]); (split; [exact T|reflexivity]). }
  destruct Q as (S & Fm & T' & Pn). assert (N : 1 <= c_processes (local_config c)) by (rewrite Pn; destruct V; lia).
  assert (Ok' : forall p, In p files -> path_ok (local_config c) p = true).
  { intros p I. unfold path_ok. rewrite <- Fm. exact (found_ok w c fuel paths files p Cw F I). }
  destruct (run_join sd d d (w_major w) c (local_config c) (w_file w) (w_ending w) files rs (c_processes (local_config c)) S Fm T T' Ok' W A N C) as (out & s & E & J).
  assert (To : toured rs).
  { eapply (run_among sd d d); [exact S|exact Fm|exact T|exact T'|exact Ok'|].
    eapply undisturbed; eassumption. }
  rewrite <- Hk in A, E.
  destruct (c54_any_targets w fuel args c paths versions printed files rs Cp P F A To M) as (o & code & Mn & Cc & I).
  exists o, code, (m_mins s). split; [exact Mn|]. split; [exact Cc|]. split; [exact J|]. rewrite I, E. cbn [snd]. split.
  - intros (Ne & s' & X & Y). injection X as <-. auto.
  - intros [Ne Y]. split; [exact Ne|]. exists s. auto.
Qed.
