(** The tips at the end of a run. Lemmas for C72. *)
From Coq Require Import Sorting.Sorted.
From Verif Require Import PyBase PyLemmas Utility RulesData Rules Config Formats Paths AstKinds Ast State Visitor
  MinVersions Parser Detection Arguments Pool Processor Main Spec_Base Spec_Utility Spec_Rules Spec_Config
  Spec_Ini Proof_Ini Spec_Detection Spec_Formats Spec_MinVersions Spec_Main Spec_Same Spec_Args Spec_Messages Spec_Fewer Spec_Tips
  Proof_Strings Proof_Utility Proof_Rules Proof_Config Proof_Detection Proof_Formats Proof_MinVersions Proof_Main
  Proof_Report Proof_Args Proof_Messages Proof_Less Proof_Verdict Proof_Options.

(** *** Summaries *)
Lemma process_counts h major c file how n paths rs : analysed h major c file how paths rs -> toured rs -> 1 <= n ->
  exists out s, process h major c file how n paths = (out, Ok s) /\ summarises rs s /\ NoDup (m_bps s).
Proof.
  intros A T N. destruct (c_ignore_incomp c) eqn:G.
  - destruct (process_summary h major c file how n paths rs A T N (or_introl G)) as (out & s & P & _ & _ & S & _ & D). eauto.
  - destruct (process_clash h major c file how n paths rs A T N G) as (out & s & P & _ & _ & S & _ & D). eauto.
Qed.
Lemma no_zero rs s : summarises rs s -> ~ In (0, 0) (m_unique s).
Proof. intros [U _ _ _] I. apply U in I as [I _]. unfold ver_lt in I. cbn in I. lia. Qed.

(** *** The backports a file is said to use *)
Lemma result_modules h major c file p how r m : snd (process_individual h major c p (file p) how) = Ok (Some r) -> r_mins r = MVers m ->
  forall b, In b (r_bps r) <-> known_backport b /\ exists source ps node nov e s,
    file p = FcSource source ps /\ parser_detect major c ps = DTree node nov /\ make_visitor h c p source nov = Ok e /\
    tour e node = Ok s /\ In b (s_modules s).
Proof.
  intros H M b. unfold process_individual in H.
  assert (E : r_bps r = [] /\ (forall source ps node nov, file p = FcSource source ps -> parser_detect major c ps <> DTree node nov) \/
    exists source ps node nov, file p = FcSource source ps /\ parser_detect major c ps = DTree node nov /\ process_tree h c p source node nov how = Ok r).
  { destruct how; try discriminate H.
    all: destruct (file p) as [x|source ps].
    all: try (left; split; [|intros; discriminate]; destruct x; cbn in H; try discriminate H; injection H as <-; reflexivity).
    all: destruct (parser_detect major c ps) as [node nov|v o|x] eqn:D; cbn [snd] in H.
    all: try (right; exists source, ps, node, nov; split; [reflexivity|]; split; [exact D|]; match type of H with mapr Some ?t = _ => destruct t; [injection H as <-; reflexivity|discriminate H] end).
    all: left; (split; [|intros s' p' n' v' Q; injection Q as <- <-; congruence]).
    all: try (injection H as <-; reflexivity).
    all: destruct x; cbn in H; try discriminate H; injection H as <-; reflexivity. }
  destruct E as [[-> N]|(source & ps & node & nov & Fp & D & P)].
  - split; [intros []|]. intros (_ & source & ps & node & nov & e & s & Fp & D & _). exfalso. exact (N _ _ _ _ Fp D).
  - unfold process_tree in P. destruct (make_visitor h c p source nov) as [e|] eqn:V; [|discriminate P]. cbn [bindr] in P.
    assert (K : exists s t, tour e node = Ok s /\ minimum_versions e s = Ok (m, t) /\ r_bps r = dedup (filter is_backport (s_modules t))).
    { destruct how; try discriminate P; [|injection P as <-; discriminate M|]; (destruct (tour e node) as [s|]; [|discriminate P]); cbn [bindr] in P;
      (destruct (minimum_versions e s) as [[m' t]|x] eqn:Mv; [injection P as <-; cbn in M; injection M as ->; exists s, t; auto|
         destruct x; try discriminate P; injection P as <-; discriminate M]). }
    destruct K as (s & t & To & Mv & ->). destruct (versions_keep _ _ _ _ Mv) as [-> _]. rewrite dedup_In, filter_In. split.
    + intros [I B]. split; [apply mem_In; exact B|]. exists source, ps, node, nov, e, s. auto 10.
    + intros (B & source' & ps' & node' & nov' & e' & s' & Fp' & D' & V' & To' & I).
      rewrite Fp in Fp'. injection Fp' as <- <-. rewrite D in D'. injection D' as <- <-. rewrite V in V'. injection V' as <-. rewrite To in To'. injection To' as <-.
      split; [exact I|]. apply mem_In. exact B.
Qed.

Lemma used_known h major c file how paths rs b : analysed h major c file how paths rs -> backport_used rs b -> known_backport b.
Proof.
  intros A (r & m & [I M] & B). destruct (analysed_In h major c file how paths rs A) as [A1 _]. destruct (A1 _ I) as (p & _ & P).
  apply (result_modules h major c file p (how p) r m P M) in B. apply B.
Qed.

(** *** Lines *)
Lemma sorted_strict l : NoDup l -> StronglySorted str_lt (isort str_leb l).
Proof.
  intros D. assert (N : NoDup (isort str_leb l)) by (apply isort_NoDup, D).
  assert (S := isort_sorted str_leb str_leb_total str_leb_trans l). revert N S. generalize (isort str_leb l). clear.
  induction l as [|x l IH]; intros N S; constructor.
  - inversion N; inversion S; subst; auto.
  - inversion N as [|x' l' Nx N']; inversion S as [|x2 l2 S' F]; subst. rewrite Forall_forall in *. intros y Hy. specialize (F y Hy).
    unfold str_lt. unfold str_leb in F. destruct (str_compare x y) eqn:E; auto; [|discriminate]. apply str_compare_eq in E. subst. contradiction.
Qed.
Lemma enabled_iff c b : enabled c b <-> mem b (unversioned_filter (c_backports c)) = true.
Proof.
  unfold enabled, unversioned_filter. rewrite mem_In. rewrite dedup_In, in_map_iff. split.
  - intros (n & I & B). exists n. split; [symmetry; apply based_unique, B|exact I].
  - intros (n & <- & I). exists n. split; [exact I|apply version_filter_based].
Qed.

Definition names_of (c : config) (s : summary) : list string :=
  isort str_leb (filter (fun b => negb (mem b (unversioned_filter (c_backports c)))) (m_bps s)).
Lemma names_suggest c rs s : summarises rs s -> NoDup (m_bps s) -> to_suggest c rs (names_of c s).
Proof.
  intros S D. split; [apply sorted_strict, NoDup_filter, D|]. intros b. unfold names_of. rewrite isort_In, filter_In, negb_true_iff.
  rewrite (sum_bps _ _ S). unfold backport_used. rewrite enabled_iff. destruct (mem b _); intuition congruence.
Qed.

Lemma backports_solid : forall b, known_backport b -> solid b.
Proof.
  assert (K : forallb (fun b => match b with String a _ => negb (is_space a) && match List.rev (list_ascii_of_string b) with z :: _ => negb (is_space z) | [] => false end | "" => false end)
    (map (fun e => fst (fst e)) backports_table) = true) by (vm_compute; reflexivity).
  intros b B. rewrite forallb_forall in K. specialize (K b B). destruct b as [|a r]; [discriminate K|]. apply andb_true_iff in K as [K1 K2].
  split; [discriminate|]. split.
  - intros c r' E. injection E as <- <-. apply negb_true_iff, K1.
  - intros r' c E. rewrite E in K2. assert (L : forall u, list_ascii_of_string (u +++ String c "") = (list_ascii_of_string u ++ [c])%list).
    { induction u as [|x u IH]; [reflexivity|]. cbn. rewrite <- IH. reflexivity. }
    rewrite L, rev_unit in K2. apply negb_true_iff, K2.
Qed.
Lemma last_char u v : v <> "" -> forall r c, u +++ v = r +++ String c "" -> exists r', v = r' +++ String c "".
Proof.
  intros N. induction u as [|x u IH]; intros r c E; [exists r; exact E|].
  destruct r as [|y r].
  - injection E as _ E. destruct u; [cbn in E; contradiction|discriminate E].
  - injection E as _ E. exact (IH r c E).
Qed.
Lemma options_end names : names <> [] -> Forall known_backport names ->
  exists u n, join " " (backport_options names) = String "-" (u +++ n) /\ known_backport n.
Proof.
  intros N F. induction F as [|n l B F IH]; [congruence|]. destruct l as [|n' l].
  - exists "-backport ", n. split; [reflexivity|exact B].
  - destruct IH as (u & k & E & K); [discriminate|]. exists ("-backport " +++ n +++ " -" +++ u), k. split; [|exact K].
    change (join " " (backport_options (n :: n' :: l))) with ("--backport" +++ " " +++ n +++ " " +++ join " " (backport_options (n' :: l))).
    rewrite E. rewrite !app_assoc_s. reflexivity.
Qed.
Lemma option_text names : Forall known_backport names ->
  strip (sconcat (map (fun n => " --backport " +++ n) names)) = join " " (backport_options names).
Proof.
  intros F. destruct names as [|n l]; [reflexivity|].
  assert (E : sconcat (map (fun n => " --backport " +++ n) (n :: l)) = " " +++ join " " (backport_options (n :: l)) +++ "").
  { rewrite app_nil_s. clear F. revert n. induction l as [|n' l IH]; intros n; cbn [map sconcat]; [cbn [sconcat map]; rewrite app_nil_s; reflexivity|].
    cbn [map] in IH. cbn [sconcat] in IH. rewrite (IH n').
    change (join " " (backport_options (n :: n' :: l))) with ("--backport" +++ " " +++ n +++ " " +++ join " " (backport_options (n' :: l))).
    rewrite !app_assoc_s. reflexivity. }
  rewrite E. apply strip_solid; [reflexivity| |reflexivity].
  destruct (options_end (n :: l)) as (u & k & -> & K); [discriminate|exact F|]. destruct (backports_solid k K) as (K1 & _ & K3).
  split; [discriminate|]. split.
  - intros c r Q. injection Q as <- _. reflexivity.
  - intros r c Q. change (String "-" (u +++ k)) with (String "-" u +++ k) in Q. destruct (last_char _ _ K1 _ _ Q) as (r' & Q'). exact (K3 r' c Q').
Qed.

(** *** The tips printed *)
Section Shown.
  Variables (h : hooks) (major : Z) (c lc : config) (file : string -> fcontent) (how : string -> ending) (paths : list string)
    (rs : list (option presult)) (s : summary) (versions : bool) (lines : list string) (code : Z).
  Hypothesis An : analysed h major lc file how paths rs.
  Hypothesis Su : summarises rs s.
  Hypothesis Nd : NoDup (m_bps s).
  Hypothesis Fm : c_format c = FDefault.
  Hypothesis Nq : c_quiet c = false.
  Hypothesis Re : report c versions s = Ok (lines, code).

  Lemma names_known : Forall known_backport (names_of c s).
  Proof. apply Forall_forall. intros b I. apply (names_suggest c rs s Su Nd) in I as [I _]. exact (used_known _ _ _ _ _ _ _ _ An I). Qed.

  Lemma tip_lines l : In ("- " +++ l) lines <-> c_show_tips c = true /\ exists t, In t (tips_of c s) /\ l = join (nl +++ "  ") t.
  Proof.
    rewrite (lines_In c versions s lines code (no_zero rs s Su) Fm Re). split.
    - intros [I|[I|[I|[I|[I|(r' & f' & A & B & _ & [I|I])]]]]].
      + apply left_out_In in I. discriminate I.
      + unfold tips_lines in I. cbv zeta in I. destruct (c_show_tips c && _) eqn:E in I; [|destruct I]. apply andb_true_iff in E as [E _]. split; [exact E|].
        rewrite !in_app_iff in I. destruct I as [I|[I|[I|[I|I]]]].
        * destruct (_ || _) in I; [apply nprint_In in I as [_ I]; discriminate I|destruct I].
        * apply nprint_In in I as [_ I]; discriminate I.
        * apply in_flat_map in I as (t & It & I). apply nprint_In in I as [_ I]. exists t. split; [exact It|]. injection I as I. exact I.
        * apply nprint_In in I as [_ I]; discriminate I.
        * destruct (_ <? _)%nat in I; [apply nprint_In in I as [_ I]; discriminate I|destruct I].
      + apply min_In in I as (t & I). discriminate I.
      + apply note_In in I as (t & I). discriminate I.
      + apply inc_In in I as (t & I). discriminate I.
      + apply A in I as (t & I). discriminate I.
      + apply B in I as (t & I). discriminate I.
    - intros (Sh & t & It & ->). right. left. unfold tips_lines. cbv zeta. rewrite Sh.
      assert (L : (0 <? List.length (tips_of c s))%nat = true) by (destruct (tips_of c s); [destruct It|reflexivity]). rewrite L. cbn [andb].
      rewrite !in_app_iff. do 2 right. left. apply in_flat_map. exists t. split; [exact It|]. apply nprint_In. split; [exact Nq|reflexivity].
  Qed.

  Definition names : list string := names_of c s.
  Lemma tips_listed l : (exists t, In t (tips_of c s) /\ l = join (nl +++ "  ") t) <->
    (m_maybe s = true /\ c_eval_annotations c = false /\ "- " +++ l = annotations_tip) \/
    (names <> [] /\ "- " +++ l = backports_tip names) \/
    (m_novm s = false /\ c_parse_comments c = true /\ "- " +++ l = comments_tip).
  Proof.
    unfold tips_of. fold (names_of c s). fold names. cbv zeta.
    assert (X : (0 <? List.length names)%nat = true <-> names <> []) by (destruct names; cbn; intuition congruence).
    assert (T : "- " +++ join (nl +++ "  ") ["You're using potentially backported modules: " +++ join ", " names;
       "If so, try using the following for better results: " +++ strip (sconcat (map (fun n => " --backport " +++ n) names))] = backports_tip names).
    { rewrite (option_text names names_known). unfold backports_tip, backports_said. cbn [join]. rewrite !app_assoc_s. reflexivity. }
    split.
    - intros (t & I & ->). rewrite !in_app_iff in I. destruct I as [I|[I|I]].
      + left. destruct (m_maybe s); [|destruct I]. destruct (c_eval_annotations c); [destruct I|]. destruct I as [<-|[]]. auto.
      + right. left. destruct (0 <? List.length names)%nat; [|destruct I]. destruct I as [<-|[]]. split; [apply X; reflexivity|exact T].
      + right. right. destruct (m_novm s); [destruct I|]. destruct (c_parse_comments c); [|destruct I]. destruct I as [<-|[]]. auto.
    - intros [(M & E & Q)|[(N & Q)|(M & E & Q)]].
      + rewrite M, E. eexists. split; [apply in_or_app; left; left; reflexivity|]. injection Q as Q. exact Q.
      + apply X in N. rewrite N. eexists. split; [apply in_or_app; right; apply in_or_app; left; left; reflexivity|]. rewrite <- T in Q. injection Q as Q. exact Q.
      + rewrite M, E. eexists. split; [apply in_or_app; right; apply in_or_app; right; left; reflexivity|]. injection Q as Q. exact Q.
  Qed.

  Lemma not_said : forall ns, backports_tip ns <> annotations_tip /\ backports_tip ns <> comments_tip /\ annotations_tip <> comments_tip.
  Proof. intros ns. split; [|split]; discriminate. Qed.

  Lemma annotations_shown : In annotations_tip lines <-> c_show_tips c = true /\ c_eval_annotations c = false /\ may_annotate rs.
  Proof.
    change annotations_tip with ("- " +++ substring 2 (String.length annotations_tip) annotations_tip) at 1. rewrite tip_lines, tips_listed.
    unfold may_annotate. rewrite <- (sum_maybe _ _ Su). change ("- " +++ substring 2 (String.length annotations_tip) annotations_tip) with annotations_tip.
    destruct (not_said names) as (N1 & N2 & N3). intuition congruence.
  Qed.
  Lemma comments_shown : In comments_tip lines <-> c_show_tips c = true /\ c_parse_comments c = true /\ ~ comment_used rs.
  Proof.
    change comments_tip with ("- " +++ substring 2 (String.length comments_tip) comments_tip) at 1. rewrite tip_lines, tips_listed.
    unfold comment_used. rewrite <- (sum_novm _ _ Su). change ("- " +++ substring 2 (String.length comments_tip) comments_tip) with comments_tip.
    destruct (not_said names) as (N1 & N2 & N3). rewrite not_true_iff_false. intuition congruence.
  Qed.
  Lemma backports_shown : exists ns, to_suggest c rs ns /\ Forall known_backport ns /\
    (In (backports_tip ns) lines <-> c_show_tips c = true /\ ns <> []) /\
    (forall t, In (backports_said +++ t) lines -> backports_said +++ t = backports_tip ns).
  Proof.
    exists names. split; [apply (names_suggest c rs s Su Nd)|]. split; [exact names_known|].
    assert (G : forall t, In (backports_said +++ t) lines <-> c_show_tips c = true /\ names <> [] /\ backports_said +++ t = backports_tip names).
    { intros t. change (backports_said +++ t) with ("- " +++ ("You're using potentially backported modules: " +++ t)). rewrite tip_lines, tips_listed.
      change ("- " +++ ("You're using potentially backported modules: " +++ t)) with (backports_said +++ t).
      assert (N1 : backports_said +++ t <> annotations_tip) by discriminate. assert (N2 : backports_said +++ t <> comments_tip) by discriminate. intuition congruence. }
    split.
    - unfold backports_tip at 1. rewrite G. fold (backports_tip names). tauto.
    - intros t I. apply G in I. tauto.
  Qed.
  Lemma no_other_tip t : In ("- " +++ t) lines -> "- " +++ t = annotations_tip \/ "- " +++ t = comments_tip \/ exists ns, "- " +++ t = backports_tip ns.
  Proof. intros I. apply tip_lines in I as [_ I]. apply tips_listed in I as [I|[I|I]]; [left; tauto|right; right; exists names; tauto|right; left; tauto]. Qed.
End Shown.

(** *** Following a tip: more options before the paths *)
Section Follow.
  Variables (cpus : Z) (re_ok : string -> bool) (ef : string -> option (list string)) (cwd : string) (cfg : string -> cfg_file)
    (det : option string).
  Variable xs : list item.
  Hypothesis Plain : Forall (fun i => exists w m, i = IOpt w (ECmd m) /\ option_means ef w (ECmd m)) xs.

  Lemma plain_in i : In i xs -> exists w m, i = IOpt w (ECmd m).
  Proof. intros I. rewrite Forall_forall in Plain. destruct (Plain i I) as (w & m & E & _). eauto. Qed.
  Lemma insert_config a b o : last_config (a ++ b) o -> last_config (a ++ xs ++ b) o.
  Proof.
    destruct o as [f|].
    - intros (u & w & v & E & N). apply app_eq_app in E as (l & [[-> E]|[-> ->]]).
      + destruct l as [|y l].
        * cbn in E. subst b. rewrite app_nil_r. exists (u ++ xs), w, v. rewrite <- app_assoc. auto.
        * injection E as <- ->. exists u, w, (l ++ xs ++ b). rewrite <- app_assoc. split; [reflexivity|]. intros w' f' I. rewrite !in_app_iff in I.
          destruct I as [I|[I|I]]; [apply (N w' f'), in_app_iff; auto|destruct (plain_in _ I) as (? & ? & Q); discriminate Q|apply (N w' f'), in_app_iff; auto].
      + exists (a ++ xs ++ l), w, v. rewrite <- !app_assoc. auto.
    - intros N w f I. rewrite !in_app_iff in I. destruct I as [I|[I|I]];
        [apply (N w f), in_app_iff; auto|destruct (plain_in _ I) as (? & ? & Q); discriminate Q|apply (N w f), in_app_iff; auto].
  Qed.
  Lemma insert_format a b o : last_format (a ++ b) o -> last_format (a ++ xs ++ b) o.
  Proof.
    destruct o as [f|].
    - intros (u & w & v & E & N). apply app_eq_app in E as (l & [[-> E]|[-> ->]]).
      + destruct l as [|y l].
        * cbn in E. subst b. rewrite app_nil_r. exists (u ++ xs), w, v. rewrite <- app_assoc. auto.
        * injection E as <- ->. exists u, w, (l ++ xs ++ b). rewrite <- app_assoc. split; [reflexivity|]. intros w' f' I. rewrite !in_app_iff in I.
          destruct I as [I|[I|I]]; [apply (N w' f'), in_app_iff; auto|destruct (plain_in _ I) as (? & ? & Q); discriminate Q|apply (N w' f'), in_app_iff; auto].
      + exists (a ++ xs ++ l), w, v. rewrite <- !app_assoc. auto.
    - intros N w f I. rewrite !in_app_iff in I. destruct I as [I|[I|I]];
        [apply (N w f), in_app_iff; auto|destruct (plain_in _ I) as (? & ? & Q); discriminate Q|apply (N w f), in_app_iff; auto].
  Qed.
  Lemma insert_no_config a b : wants_no_config (a ++ xs ++ b) <-> wants_no_config (a ++ b).
  Proof.
    unfold wants_no_config. rewrite !in_app_iff. split; [|tauto]. intros [I|[I|I]]; auto. destruct (plain_in _ I) as (? & ? & Q). discriminate Q.
  Qed.
  Lemma insert_base c a b c0 : base cpus re_ok cfg cwd det c (a ++ b) c0 -> base cpus re_ok cfg cwd det c (a ++ xs ++ b) c0.
  Proof.
    intros B. destruct B as [f c' L W P|L W|f c' L W D P|L W D].
    - eapply base_argument; [apply insert_config; eassumption|rewrite insert_no_config; exact W|exact P].
    - apply base_disabled; [apply insert_config; exact L|rewrite insert_no_config; exact W].
    - eapply base_detected; [apply insert_config; exact L|rewrite insert_no_config; exact W|exact D|exact P].
    - apply base_none; [apply insert_config; exact L|rewrite insert_no_config; exact W|exact D].
  Qed.

  Variable f : config -> config.
  Hypothesis Run : forall c, all_accepted cpus re_ok c (cmds xs) /\ run_cmds cpus re_ok (cmds xs) c = f c.
  Hypothesis Form : forall fm c, set_format fm (f c) = f (set_format fm c).
  Hypothesis Used : forall c, used (f c) = f (used c).
  Hypothesis Refd : forall c, refused (f c) -> refused c.
  Hypothesis Fmt : forall c, c_format (f c) = c_format c.

  Lemma cmds_app a b : cmds (a ++ b) = cmds a ++ cmds b.
  Proof. unfold cmds. apply flat_map_app. Qed.
  Lemma cmds_paths ps : cmds (map IPath ps) = [].
  Proof. induction ps; [reflexivity|assumption]. Qed.

  Lemma followed opts paths c c0 o :
    let l := opts ++ map IPath paths in
    Forall (fun i => exists w e, i = IOpt w e /\ option_means ef w e) opts -> Forall plain_arg paths -> l <> [] ->
    base cpus re_ok cfg cwd det c l c0 -> all_accepted cpus re_ok c0 (cmds l) -> last_format l o ->
    ~ refused (with_format o (run_cmds cpus re_ok (cmds l) c0)) ->
    exists c1 v printed printed',
      parse cpus re_ok ef cwd cfg (Ok det) (command_line opts ++ paths) c = Ok (c1, OPaths paths v printed) /\
      parse cpus re_ok ef cwd cfg (Ok det) (command_line opts ++ command_line xs ++ paths) c = Ok (f c1, OPaths paths v printed').
  Proof.
    intros l Fo Fp Ne B A LF R. set (c2 := with_format o (run_cmds cpus re_ok (cmds l) c0)) in *.
    assert (FI : forall ys, Forall (fun i => exists w e, i = IOpt w e /\ option_means ef w e) ys -> Forall (item_ok ef) (ys ++ map IPath paths)).
    { intros ys Fy. apply Forall_app. split.
      - eapply Forall_impl; [|exact Fy]. intros i [w [e [-> M]]]. exact M.
      - clear - Fp. induction Fp; cbn; constructor; auto. }
    assert (SK : forall ys, Forall (fun i => exists w e, i = IOpt w e /\ option_means ef w e) ys -> skipn (option_words (ys ++ map IPath paths)) (command_line (ys ++ map IPath paths)) = paths).
    { intros ys Fy. apply options_first. eapply Forall_impl; [|exact Fy]. intros i [w [e [-> _]]]. eauto. }
    assert (CP : command_line (map IPath paths) = paths).
    { clear. unfold command_line. induction paths as [|p ps IH]; [reflexivity|]. cbn. rewrite IH. reflexivity. }
    assert (CA : forall a b, command_line (a ++ b) = command_line a ++ command_line b) by (intros; unfold command_line; apply flat_map_app).
    destruct (parse_items cpus re_ok ef cwd cfg det l c c0 o Ne (FI opts Fo) B A LF) as [_ H]. fold c2 in H. destruct (H R) as (v & pr & P & V). clear H.
    unfold l in P. rewrite (SK opts Fo), CA, CP in P.
    set (l' := (opts ++ xs) ++ map IPath paths).
    assert (Fo' : Forall (fun i => exists w e, i = IOpt w e /\ option_means ef w e) (opts ++ xs)).
    { apply Forall_app. split; [exact Fo|]. eapply Forall_impl; [|exact Plain]. intros i (w & m & -> & M). eauto. }
    assert (C' : cmds l' = cmds l ++ cmds xs).
    { unfold l', l. rewrite !cmds_app, cmds_paths, !app_nil_r. reflexivity. }
    assert (B' : base cpus re_ok cfg cwd det c l' c0) by (unfold l'; rewrite <- app_assoc; apply insert_base; exact B).
    assert (A' : all_accepted cpus re_ok c0 (cmds l')) by (rewrite C'; apply accepted_app; [exact A|apply Run]).
    assert (LF' : last_format l' o) by (unfold l'; rewrite <- app_assoc; apply insert_format; exact LF).
    assert (Ne' : l' <> []) by (unfold l', l in *; destruct opts; [destruct xs; [exact Ne|discriminate]|discriminate]).
    destruct (parse_items cpus re_ok ef cwd cfg det l' c c0 o Ne' (FI _ Fo') B' A' LF') as [_ H].
    assert (E2 : with_format o (run_cmds cpus re_ok (cmds l') c0) = f c2).
    { rewrite C', run_app'. destruct (Run (run_cmds cpus re_ok (cmds l) c0)) as [_ ->]. unfold c2, with_format. destruct o; [apply Form|reflexivity]. }
    rewrite E2 in H. destruct H as (v' & pr' & P' & V'); [intros K; apply R, Refd, K|].
    unfold l' in P'. rewrite (SK _ Fo'), !CA, CP, <- app_assoc in P'. rewrite Used in P'. rewrite Fmt in V'.
    exists (used c2), v, pr, pr'. split; [exact P|].
    assert (W : wants_versions l' <-> wants_versions l).
    { unfold wants_versions, l', l. split; intros (w & I); exists w; rewrite !in_app_iff in *; [|tauto].
      destruct I as [[I|I]|I]; auto. destruct (plain_in _ I) as (? & ? & Q). discriminate Q. }
    assert (v' = v) by (apply eq_true_iff_eq; rewrite V, V', W; reflexivity). subst v'. exact P'.
  Qed.
End Follow.

Definition backport_items (bs : list string) : list item := map (fun b => IOpt ["--backport"; b] (ECmd (CmdAddBackport b))) bs.
Lemma follow_backports cpus re_ok ef cwd cfg det opts paths c c0 o bs :
  let l := opts ++ map IPath paths in
  Forall (fun i => exists w e, i = IOpt w e /\ option_means ef w e) opts -> Forall plain_arg paths -> l <> [] ->
  base cpus re_ok cfg cwd det c l c0 -> all_accepted cpus re_ok c0 (cmds l) -> last_format l o ->
  ~ refused (with_format o (run_cmds cpus re_ok (cmds l) c0)) -> Forall known_backport bs ->
  exists c1 v printed printed',
    parse cpus re_ok ef cwd cfg (Ok det) (command_line opts ++ paths) c = Ok (c1, OPaths paths v printed) /\
    parse cpus re_ok ef cwd cfg (Ok det) (command_line opts ++ backport_options bs ++ paths) c =
      Ok (w_backports (add_all bs (c_backports c1)) c1, OPaths paths v printed').
Proof.
  intros l Fo Fp Ne B A LF R K.
  assert (CL : command_line (backport_items bs) = backport_options bs).
  { clear. unfold command_line, backport_items, backport_options. induction bs as [|b bs IH]; [reflexivity|]. cbn. rewrite IH. reflexivity. }
  assert (CM : cmds (backport_items bs) = map CmdAddBackport bs).
  { clear. unfold cmds, backport_items. induction bs as [|b bs IH]; [reflexivity|]. cbn. rewrite IH. reflexivity. }
  rewrite <- CL.
  apply (followed cpus re_ok ef cwd cfg det (backport_items bs)) with (f := fun c => w_backports (add_all bs (c_backports c)) c) (c0 := c0) (o := o); try assumption.
  - clear - K. induction K as [|b bs K F IH]; constructor; [|exact IH]. eexists _, _. split; [reflexivity|]. apply om_backport.
    destruct b as [|a r]; [exact I|]. cbn. intros ->. revert K. clear. intros K.
    assert (X : forallb (fun b => negb (match b with String "-" _ => true | _ => false end)) (map (fun e => fst (fst e)) backports_table) = true) by (vm_compute; reflexivity).
    rewrite forallb_forall in X. specialize (X _ K). discriminate X.
  - intros c'. rewrite CM. split.
    + apply accepted_map. intros s x J. rewrite Forall_forall in K. exact (K x J).
    + apply run_backports. intros x J. apply is_backport_iff. rewrite Forall_forall in K. exact (K x J).
  - intros fm c'. destruct c', fm; reflexivity.
  - intros c'. unfold used. destruct c' as [? ? ? ? ? ? ? ? ? ? ? ? ? ? ? vi ? ? ?]; cbn. destruct vi; reflexivity.
  - intros c'. unfold refused. destruct c'. cbn. auto.
  - intros c'. destruct c'; reflexivity.
Qed.
Lemma follow_flag cpus re_ok ef cwd cfg det opts paths c c0 o w m f :
  let l := opts ++ map IPath paths in
  Forall (fun i => exists w e, i = IOpt w e /\ option_means ef w e) opts -> Forall plain_arg paths -> l <> [] ->
  base cpus re_ok cfg cwd det c l c0 -> all_accepted cpus re_ok c0 (cmds l) -> last_format l o ->
  ~ refused (with_format o (run_cmds cpus re_ok (cmds l) c0)) ->
  In (w, m, f) [("--eval-annotations", CmdEvalAnnotations true, w_eval_annotations true); ("--no-parse-comments", CmdParseComments false, w_parse_comments false)] ->
  exists c1 v printed printed',
    parse cpus re_ok ef cwd cfg (Ok det) (command_line opts ++ paths) c = Ok (c1, OPaths paths v printed) /\
    parse cpus re_ok ef cwd cfg (Ok det) (command_line opts ++ [w] ++ paths) c = Ok (f c1, OPaths paths v printed').
Proof.
  intros l Fo Fp Ne B A LF R I. change [w] with (command_line [IOpt [w] (ECmd m)]).
  destruct I as [I|[I|[]]]; injection I as <- <- <-;
  (eapply (followed cpus re_ok ef cwd cfg det) with (c0 := c0) (o := o); try assumption;
   [constructor; [eexists _, _; split; [reflexivity|apply om_flag; cbn; tauto]|constructor]
   |intros c'; split; [constructor; [exact Logic.I|constructor]|reflexivity]
   |intros fm c'; destruct c', fm; reflexivity
   |intros c'; unfold used; destruct c' as [? ? ? ? ? ? ? ? ? ? ? ? ? ? ? vi ? ? ?]; cbn; destruct vi; reflexivity
   |intros c'; unfold refused; destruct c'; cbn; auto
   |intros c'; destruct c'; reflexivity]).
Qed.

(** *** Reading no comments *)
Lemma syntax_comments major c se : syntax_verdict major (w_parse_comments false c) se = syntax_verdict major c se.
Proof. destruct c. reflexivity. Qed.
Lemma tree_novm h c p source node nov how r : process_tree h c p source node nov how = Ok r -> r_novermin r = nov.
Proof.
  unfold process_tree. destruct (make_visitor h c p source nov) as [e|]; [|discriminate]. cbn [bindr].
  destruct how; try discriminate; [|intros E; injection E as <-; reflexivity|]; (destruct (tour e node) as [s|]; [|discriminate]; cbn [bindr];
    destruct (minimum_versions e s) as [[m t]|x]; [intros E; injection E as <-; reflexivity|destruct x; try discriminate; intros E; injection E as <-; reflexivity]).
Qed.
Lemma individual_comments h major c p f how r : targets_given c -> c_parse_comments c = true -> read_well f ->
  snd (process_individual h major c p f how) = Ok r -> (forall a, r = Some a -> r_novermin a = []) ->
  same_work (Ok r) (snd (process_individual h major (w_parse_comments false c) p f how)).
Proof.
  intros T C W H N. set (c' := w_parse_comments false c).
  assert (S : forall r : option presult, same_work (Ok r) (Ok r)) by (intros [a|]; cbn; auto 10).
  unfold process_individual in H |- *.
  assert (K : how <> EndAbort) by (intros ->; discriminate H).
  assert (E : snd match f with
    | FcErr x => ([], match x with PeInterrupt => Ok (Some (mkRes p MNone "" [] [] false)) | PeValue | PeType => Ok None
       | PeOther t => Ok (Some (mkRes p (MVers zero_mins) (p +++ ": " +++ t) [] [] false)) | PeSyntax _ => Ok None end)
    | FcSource source ps => match parser_detect major c ps with
      | DExn x => ([], match x with PeInterrupt => Ok (Some (mkRes p MNone "" [] [] false)) | PeValue | PeType => Ok None
       | PeOther t => Ok (Some (mkRes p (MVers zero_mins) (p +++ ": " +++ t) [] [] false)) | PeSyntax _ => Ok None end)
      | DVerdict m printed => (printed, Ok (Some (mkRes p (MVers m) "" [] [] false)))
      | DTree node nov => ([], mapr Some (process_tree h c p source node nov how)) end end = Ok r) by (destruct how; [exact H|exact H|congruence|exact H]).
  clear H. match goal with |- same_work _ (snd (match how with _ => _ end)) => idtac end.
  assert (G : same_work (Ok r) (snd match f with
    | FcErr x => ([], match x with PeInterrupt => Ok (Some (mkRes p MNone "" [] [] false)) | PeValue | PeType => Ok None
       | PeOther t => Ok (Some (mkRes p (MVers zero_mins) (p +++ ": " +++ t) [] [] false)) | PeSyntax _ => Ok None end)
    | FcSource source ps => match parser_detect major c' ps with
      | DExn x => ([], match x with PeInterrupt => Ok (Some (mkRes p MNone "" [] [] false)) | PeValue | PeType => Ok None
       | PeOther t => Ok (Some (mkRes p (MVers zero_mins) (p +++ ": " +++ t) [] [] false)) | PeSyntax _ => Ok None end)
      | DVerdict m printed => (printed, Ok (Some (mkRes p (MVers m) "" [] [] false)))
      | DTree node nov => ([], mapr Some (process_tree h c' p source node nov how)) end end)).
  2: destruct how; [exact G|exact G|congruence|exact G].
  destruct f as [x|source ps]; [rewrite E; apply S|].
  unfold parser_detect in E |- *. destruct ps as [x|node toks].
  { assert (Q : forall y, syntax_verdict major c' y = syntax_verdict major c y) by (intros y; apply syntax_comments).
    destruct x as [se| | | |t]; try (cbn [snd] in *; rewrite E; apply S).
    rewrite Q. destruct (syntax_verdict major c se) as [m out]. cbn [snd] in *. rewrite E. apply S. }
  destruct toks as [x|l]; [exfalso; exact (W source node x eq_refl)|].
  rewrite C in E. assert (C' : c_parse_comments c' = false) by (destruct c; reflexivity). rewrite C'. cbn [snd] in *.
  destruct (process_tree h c p source node (comments l) how) as [a|] eqn:P; [|discriminate E]. injection E as <-.
  assert (Z := tree_novm _ _ _ _ _ _ _ _ P). rewrite (N a eq_refl) in Z. rewrite <- Z in P.
  assert (Po : path_ok c p = true).
  { unfold process_tree, make_visitor, py_assert in P. destruct (path_ok c p); [reflexivity|]. cbn [bindr] in P. destruct how; discriminate P. }
  destruct h as [sd d].
  assert (Fs := file_same sd d d c c' p source node node [] how). rewrite P in Fs.
  assert (X : same_result (Ok a) (process_tree (mkHooks sd d) c' p source node [] how)).
  { apply Fs; try assumption.
    all: first [apply er_same | solve [unfold same_analysis; destruct c; cbn; tauto]
      | solve [unfold targets_given in *; destruct c; exact T] | solve [destruct c; exact Po] | idtac]. }
  destruct (process_tree (mkHooks sd d) c' p source node [] how) as [b|]; [|contradiction X]. exact X.
Qed.

Lemma comments_same h major c file how n paths rs out s : analysed h major c file how paths rs -> targets_given c -> c_parse_comments c = true ->
  (forall p, In p paths -> read_well (file p)) -> (forall r, In (Some r) rs -> r_novermin r = []) ->
  process h major c file how n paths = (out, Ok s) ->
  exists out', process h major (w_parse_comments false c) file how n paths = (out', Ok s).
Proof.
  intros A T C W N P. set (c' := w_parse_comments false c) in *.
  assert (Ig : c_ignore_incomp c = c_ignore_incomp c') by (destruct c; reflexivity).
  unfold process in P |- *.
  set (ws := map (fun p => snd (process_individual h major c p (file p) (how p))) paths) in *.
  set (ws' := map (fun p => snd (process_individual h major c' p (file p) (how p))) paths).
  assert (F : Forall2 same_work ws ws').
  { unfold ws, ws'. clear P ws ws'. revert W N. induction A as [|p r paths rs H A IH]; intros W N; cbn [map]; constructor.
    - rewrite H. apply individual_comments; try assumption; [apply W; left; reflexivity|]. intros a ->. apply N. left. reflexivity.
    - apply IH; [intros q I; apply W; right; exact I|intros a I; apply N; right; exact I]. }
  assert (L : same_agg (fst (run_results c n ws)) (fst (run_results c' n ws')) /\ snd (run_results c n ws) = snd (run_results c' n ws')).
  { assert (E : first_err ws = first_err ws').
    { clear - F. induction F as [|r r' rs rs' A W IH]; [reflexivity|]. unfold first_err in *. cbn [fold_right].
      destruct r as [[r|]|x], r' as [[r'|]|x']; cbn in A; try contradiction; try exact IH. congruence. }
    assert (R : same_agg agg_init agg_init) by (repeat split).
    unfold run_results. rewrite <- E. destruct (n =? 1).
    - destruct (first_err ws); [split; [exact R|reflexivity]|]. exact (Proof_Verdict.loop_same c c' ws ws' Ig F _ _ R).
    - destruct (n <? 1); [split; [exact R|reflexivity]|]. exact (Proof_Verdict.loop_same c c' ws ws' Ig F _ _ R). }
  destruct (run_results c n ws) as [a o], (run_results c' n ws') as [b o']. cbn [fst snd] in L. destruct L as [(L1 & L2 & L3 & L4 & L5 & L6) <-].
  assert (Q : summary_of a = summary_of b) by (unfold summary_of; rewrite L1, L2, L3, L4, L5, L6; reflexivity).
  destruct o as [x|]; [|injection P as _ <-; rewrite Q; eauto].
  destruct x; try discriminate P; injection P as _ <-; rewrite Q; eauto.
Qed.

(** *** Saying that the backports are there *)
Lemma backports_gone h major c file how n paths rs out s ns lc : lc = local_config c ->
  analysed h major lc file how paths rs -> toured rs -> 1 <= n -> targets_given c ->
  process h major lc file how n paths = (out, Ok s) -> m_incomp s = false -> to_suggest c rs ns ->
  (forall b x, backport_used rs b -> ~ versioned b x) -> (forall b t, In b ns -> b <> "typing_extensions" +++ t) ->
  let c' := w_backports (add_all ns (c_backports c)) c in
  exists out' s', process h major (local_config c') file how n paths = (out', Ok s') /\ mins_le (m_mins s') (m_mins s) /\
    (forall b, In b (m_bps s') -> enabled c' b) /\ m_maybe s' = m_maybe s /\ m_novm s' = m_novm s.
Proof.
  intros El A T N Ta P Ic Sg V Te c'.
  assert (El' : local_config c' = w_backports (add_all ns (c_backports c)) lc).
  { subst lc. unfold c', local_config. destruct c as [q ? ? ? ? ? ? ? ? ? ? ? ? ? ? vi ? ? ?]; cbn. destruct (vi && q); reflexivity. }
  assert (Bl : c_backports lc = c_backports c) by (subst lc; unfold local_config; destruct (_ && _); destruct c; reflexivity).
  rewrite El'. set (lc' := w_backports (add_all ns (c_backports c)) lc).
  assert (M : laxer_reading lc lc').
  { unfold laxer_reading, laxer, more_backports, same_texts. unfold lc'. destruct lc; cbn in *. subst.
    split; [repeat split; auto|]. split; [|repeat split]. split.
    - intros b I. apply add_all_In. auto.
    - intros b t -> I. apply add_all_In in I as [I|I]; [exfalso; exact (Te _ _ I eq_refl)|exact I]. }
  assert (Tl : targets_given lc) by (subst lc; unfold targets_given, local_config in *; destruct (_ && _); destruct c; exact Ta).
  assert (Tl' : targets_given lc') by (unfold lc', targets_given in *; destruct lc; exact Tl).
  destruct (run_less h major lc lc' file how M Tl Tl' n paths rs out s A T N P Ic) as (out' & s' & P' & _ & Le & Bi & Ma & No).
  exists out', s'. split; [exact P'|]. split; [exact Le|].
  destruct (process_counts h major lc file how n paths rs A T N) as (o2 & s2 & P2 & Su & Nd). rewrite P in P2. injection P2 as <- <-.
  split; [|split; assumption]. intros b I. assert (U : backport_used rs b) by (apply (sum_bps _ _ Su), Bi, I).
  destruct (mem b (unversioned_filter (c_backports c))) eqn:Q.
  - apply enabled_iff in Q as (x & Ix & Bx). exists x. split; [|exact Bx]. unfold c'. destruct c; cbn in *. apply add_all_In. auto.
  - assert (Is : In b ns). { apply Sg. split; [exact U|]. rewrite enabled_iff, Q. discriminate. }
    exists b. split; [unfold c'; destruct c; cbn in *; apply add_all_In; auto|]. right. split; [reflexivity|]. intros x. apply V, U.
Qed.
