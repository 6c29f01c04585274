(** Options and config files. Lemmas for C68. *)
From Verif Require Import PyBase PyLemmas Utility RulesData Rules Config Formats Paths Ini Arguments Processor Main
  Spec_Base Spec_Utility Spec_Config Spec_Args Spec_Ini Spec_Options
  Proof_Utility Proof_Config Proof_Args Proof_Ini Proof_Written.
Notation aitem := Spec_Args.item.

(** ** The options as items *)
Definition flagi (b : bool) (on off : string) (m : bool -> cmd) : aitem := IOpt [one_of b on off] (ECmd (m b)).
Definition eachi (o : string) (m : string -> cmd) (l : list string) : list aitem := map (fun x => IOpt [o; x] (ECmd (m x))) l.
Definition targeti (t : target) : aitem := IOpt ["-t=" +++ target_line t] (ECmd (CmdAddTarget (TStr (target_line t)))).
Definition flag_items (c : config) : list aitem :=
  [flagi (c_quiet c) "--quiet" "--no-quiet" CmdQuiet; flagi (c_print_visits c) "--dump" "--no-dump" CmdPrintVisits;
   IOpt ["-p=" +++ z_str (c_processes c)] (ECmd (CmdProcesses (c_processes c)));
   flagi (c_ignore_incomp c) "--ignore" "--no-ignore" CmdIgnoreIncomp; flagi (c_pessimistic c) "--pessimistic" "--no-pessimistic" CmdPessimistic;
   flagi (c_show_tips c) "--show-tips" "--no-tips" CmdShowTips; flagi (c_analyze_hidden c) "--hidden" "--no-hidden" CmdHidden;
   flagi (c_make_paths_absolute c) "--make-paths-absolute" "--no-make-paths-absolute" CmdAbsolute;
   flagi (c_eval_annotations c) "--eval-annotations" "--no-eval-annotations" CmdEvalAnnotations;
   flagi (c_only_show_violations c) "--violations" "--no-violations" CmdViolations;
   flagi (c_parse_comments c) "--parse-comments" "--no-parse-comments" CmdParseComments;
   flagi (c_scan_symlink_folders c) "--scan-symlink-folders" "--no-symlink-folders" CmdSymlinks].
Definition verbose_items (c : config) : list aitem :=
  if 0 <? c_verbose c then [IOpt ["-" +++ many_v (Z.to_nat (c_verbose c))] (ECmd (CmdVerbose (c_verbose c)))] else [].
Definition format_items (c : config) : list aitem :=
  match c_format c with FDefault => [] | FParsable => [IOpt ["--format"; "parsable"] (EFormat FParsable)] end.
Definition set_items (c : config) : list aitem :=
  flag_items c ++ verbose_items c ++
  eachi "--exclude" CmdAddExclusion (exclusions c) ++ eachi "--exclude-regex" CmdAddExclusionRegex (exclusion_regex c) ++
  eachi "--backport" CmdAddBackport (c_backports c) ++ eachi "--feature" CmdEnableFeature (c_features c) ++ map targeti (c_targets c).
Definition spelled_items (c : config) : list aitem := set_items c ++ format_items c.

Lemma command_app a b : command_line (a ++ b) = command_line a ++ command_line b.
Proof. apply flat_map_app. Qed.
Lemma command_each o m l : command_line (eachi o m l) = each o l.
Proof.
  induction l as [|x l IH]; [reflexivity|]. change (command_line (eachi o m (x :: l))) with (o :: x :: command_line (eachi o m l)). rewrite IH. reflexivity.
Qed.
Lemma command_targets l : command_line (map targeti l) = map (fun t : target => "-t=" +++ ver_str (snd t) +++ (if fst t then "" else "-")) l.
Proof. induction l as [|x l IH]; [reflexivity|]. cbn [map]. change (command_line (targeti x :: map targeti l)) with (("-t=" +++ target_line x) :: command_line (map targeti l)). rewrite IH. reflexivity. Qed.
Lemma spelled_line c : command_line (spelled_items c) = spelled c.
Proof.
  unfold spelled_items, set_items, spelled. rewrite !command_app, !command_each, command_targets. rewrite <- !app_assoc.
  unfold verbose_items, format_items. destruct (0 <? c_verbose c), (c_format c); reflexivity.
Qed.
Lemma many_vs n : many_v n = vs n.
Proof. induction n as [|n IH]; [reflexivity|]. cbn. rewrite IH. reflexivity. Qed.
Lemma undashed_plain a : undashed a -> plain_arg a.
Proof. destruct a as [|x a]; intros H; [exact I|]. cbn. intros ->. exact (H a eq_refl). Qed.
Lemma named_plain l : forallb (fun s => match s with String x _ => negb (Ascii.eqb x "-") | _ => true end) l = true -> forall a, In a l -> plain_arg a.
Proof.
  intros H a I. rewrite forallb_forall in H. apply H in I. destruct a as [|x a]; [exact Logic.I|]. cbn. intros ->. discriminate.
Qed.
Lemma safe_no_eq s : sall (fun x => negb (Ascii.eqb x "=")) s = true -> no_eq s.
Proof.
  unfold no_eq. induction s as [|x s IH]; cbn [list_ascii_of_string In]; intros H I; [exact I|]. rewrite sall_cons in H. apply andb_prop in H as [A B]. destruct I as [->|I]; [discriminate|exact (IH B I)].
Qed.
Lemma number_no_eq n : sall (fun x => negb (Ascii.eqb x "=")) (z_str n) = true.
Proof. apply (sall_impl digit_minus); [|apply z_str_chars]. intros c H. destruct (Ascii.eqb_spec c "=") as [->|]; [discriminate H|reflexivity]. Qed.
Lemma target_no_eq (t : target) : no_eq (target_line t).
Proof. apply safe_no_eq. unfold target_line, ver_str. rewrite !sall_app, !number_no_eq. destruct (fst t); reflexivity. Qed.

Section Spelled.
  Context (cpus : Z) (re_ok : string -> bool) (excl_file : string -> option (list string)) (c : config).
  Hypothesis Exp : expressible re_ok c.
  Hypothesis Und : Forall undashed (c_exclusions_set c ++ c_exclusion_regex_set c).

  Lemma spelled_ok : Forall (item_ok excl_file) (spelled_items c).
  Proof.
    destruct Exp as (Hv & Hp & _ & _ & _ & (_ & Hb) & (_ & Hf) & _). apply Forall_app in Und as [Ue Ur].
    assert (P : forall l, Forall undashed l -> forall x, In x (isort str_leb l) -> plain_arg x).
    { intros l F x I. apply isort_In in I. rewrite Forall_forall in F. apply undashed_plain, F, I. }
    assert (FL : forall b on off m, In (on, m true) flag_options -> In (off, m false) flag_options -> item_ok excl_file (flagi b on off m)).
    { intros b on off m A B. unfold flagi, one_of. destruct b; apply om_flag; assumption. }
    unfold spelled_items, set_items. rewrite !Forall_app. repeat split.
    - unfold flag_items. repeat (apply Forall_cons; [try (apply FL; unfold flag_options; cbn [In]; tauto)|]); [|apply Forall_nil].
      apply om_processes; [left; reflexivity| |apply py_int_z_str; lia]. apply safe_no_eq, number_no_eq.
    - unfold verbose_items. destruct (Z.ltb_spec 0 (c_verbose c)); [|constructor]. constructor; [|constructor]. cbn [item_ok].
      rewrite many_vs. rewrite <- (Z2Nat.id (c_verbose c)) at 2 by lia. apply om_verbose. lia.
    - apply Forall_map, Forall_forall. intros x I. apply om_exclude. exact (P _ Ue x I).
    - apply Forall_map, Forall_forall. intros x I. apply om_exclude_regex. exact (P _ Ur x I).
    - apply Forall_map, Forall_forall. intros x I. apply om_backport. apply Hb in I. revert I. apply named_plain. vm_compute. reflexivity.
    - apply Forall_map, Forall_forall. intros x I. apply om_feature. apply Hf in I. revert I. apply named_plain. vm_compute. reflexivity.
    - apply Forall_map, Forall_forall. intros t I. apply om_target; [left; reflexivity|]. apply target_no_eq.
    - unfold format_items. destruct (c_format c); constructor; [|constructor]. apply om_format; [left; reflexivity|discriminate|right; split; reflexivity].
  Qed.

  (** The commands, and the configuration they give. *)
  Lemma cmds_app a b : cmds (a ++ b) = cmds a ++ cmds b.
  Proof. apply flat_map_app. Qed.
  Lemma cmds_each o m l : cmds (eachi o m l) = map m l.
  Proof.
    induction l as [|x l IH]; [reflexivity|]. change (cmds (eachi o m (x :: l))) with (m x :: cmds (eachi o m l)). rewrite IH. reflexivity.
  Qed.
  Lemma cmds_targets l : cmds (map targeti l) = map (fun t => CmdAddTarget (TStr (target_line t))) l.
  Proof. induction l as [|x l IH]; [reflexivity|]. cbn [map]. change (cmds (targeti x :: map targeti l)) with (CmdAddTarget (TStr (target_line x)) :: cmds (map targeti l)). rewrite IH. reflexivity. Qed.
  Lemma accepted_app a b : forall s, all_accepted cpus re_ok s a -> all_accepted cpus re_ok (run_cmds cpus re_ok a s) b -> all_accepted cpus re_ok s (a ++ b).
  Proof.
    induction a as [|m a IH]; intros s A B; [exact B|]. inversion A; subst. cbn [app]. constructor; [assumption|]. apply IH; assumption.
  Qed.
  Lemma run_app' a b s : run_cmds cpus re_ok (a ++ b) s = run_cmds cpus re_ok b (run_cmds cpus re_ok a s).
  Proof. apply fold_left_app. Qed.
  Lemma accepted_map (m : string -> cmd) l : (forall s x, In x l -> accepted re_ok s (m x)) -> forall s, all_accepted cpus re_ok s (map m l).
  Proof. induction l as [|x l IH]; intros H s; [constructor|]. cbn. constructor; [apply H; left; reflexivity|]. apply IH. intros s' y I. apply H. right. exact I. Qed.

  Lemma run_exclusions l : forall s, run_cmds cpus re_ok (map CmdAddExclusion l) s = w_exclusions_set (add_all l (c_exclusions_set s)) s.
  Proof.
    induction l as [|x l IH]; intros s; [destruct s; reflexivity|]. cbn [map]. change (run_cmds cpus re_ok (CmdAddExclusion x :: map CmdAddExclusion l) s) with (run_cmds cpus re_ok (map CmdAddExclusion l) (add_exclusion x s)).
    rewrite IH. destruct s; reflexivity.
  Qed.
  Lemma run_regex l : (forall x, In x l -> re_ok x = true) -> forall s, run_cmds cpus re_ok (map CmdAddExclusionRegex l) s = w_exclusion_regex_set (add_all l (c_exclusion_regex_set s)) s.
  Proof.
    induction l as [|x l IH]; intros H s; [destruct s; reflexivity|]. cbn [map].
    change (run_cmds cpus re_ok (CmdAddExclusionRegex x :: map CmdAddExclusionRegex l) s) with (run_cmds cpus re_ok (map CmdAddExclusionRegex l) (run_cmd cpus re_ok s (CmdAddExclusionRegex x))).
    rewrite IH by (intros y I; apply H; right; exact I). cbn [run_cmd]. unfold add_exclusion_regex. rewrite (H x (or_introl eq_refl)). destruct s; reflexivity.
  Qed.
  Lemma run_backports l : (forall x, In x l -> is_backport x = true) -> forall s, run_cmds cpus re_ok (map CmdAddBackport l) s = w_backports (add_all l (c_backports s)) s.
  Proof.
    induction l as [|x l IH]; intros H s; [destruct s; reflexivity|]. cbn [map].
    change (run_cmds cpus re_ok (CmdAddBackport x :: map CmdAddBackport l) s) with (run_cmds cpus re_ok (map CmdAddBackport l) (run_cmd cpus re_ok s (CmdAddBackport x))).
    rewrite IH by (intros y I; apply H; right; exact I). cbn [run_cmd]. unfold add_backport. rewrite (H x (or_introl eq_refl)). destruct s; reflexivity.
  Qed.
  Lemma run_features l : (forall x, In x l -> is_feature x = true) -> forall s, run_cmds cpus re_ok (map CmdEnableFeature l) s = w_features (add_all l (c_features s)) s.
  Proof.
    induction l as [|x l IH]; intros H s; [destruct s; reflexivity|]. cbn [map].
    change (run_cmds cpus re_ok (CmdEnableFeature x :: map CmdEnableFeature l) s) with (run_cmds cpus re_ok (map CmdEnableFeature l) (run_cmd cpus re_ok s (CmdEnableFeature x))).
    rewrite IH by (intros y I; apply H; right; exact I). cbn [run_cmd]. unfold enable_feature. rewrite (H x (or_introl eq_refl)). destruct s; reflexivity.
  Qed.
  Lemma run_targets l : Forall (fun t : target => in_range (snd t) /\ 0 <= snd (snd t)) l -> forall s, (List.length (c_targets s) + List.length l <= 2)%nat ->
    all_accepted cpus re_ok s (map (fun t => CmdAddTarget (TStr (target_line t))) l) /\
    run_cmds cpus re_ok (map (fun t => CmdAddTarget (TStr (target_line t))) l) s = w_targets (fold_left push_target l (c_targets s)) s.
  Proof.
    induction 1 as [|t l (R & M) F IH]; intros s L; [split; [constructor|destruct s; reflexivity]|]. cbn [map List.length] in *.
    assert (P : parse_target (target_line t) = Some t) by (destruct t as [e v]; apply parse_target_roundtrip; assumption).
    assert (A : run_cmd cpus re_ok s (CmdAddTarget (TStr (target_line t))) = w_targets (push_target (c_targets s) t) s).
    { cbn [run_cmd]. unfold add_target. rewrite P. destruct (Nat.eqb_spec (List.length (c_targets s)) 2); [lia|reflexivity]. }
    assert (Q : (List.length (c_targets (w_targets (push_target (c_targets s) t) s)) + List.length l <= 2)%nat).
    { cbn [c_targets w_targets]. unfold push_target. rewrite isort_length, app_length. cbn [List.length]. lia. }
    destruct (IH _ Q) as [I1 I2]. split.
    - constructor; [|rewrite A; exact I1]. cbn [accepted]. split; [lia|]. exists t. apply parse_target_iff in P as [P1 P2]. constructor; assumption.
    - change (run_cmds cpus re_ok (CmdAddTarget (TStr (target_line t)) :: map (fun t => CmdAddTarget (TStr (target_line t))) l) s) with
        (run_cmds cpus re_ok (map (fun t => CmdAddTarget (TStr (target_line t))) l) (run_cmd cpus re_ok s (CmdAddTarget (TStr (target_line t))))).
      rewrite A, I2. destruct s; reflexivity.
  Qed.

  Definition given : config := override_from c (default_config cpus).
  Lemma spelled_run : all_accepted cpus re_ok (default_config cpus) (cmds (spelled_items c)) /\
    with_format (match c_format c with FDefault => None | FParsable => Some FParsable end)
      (run_cmds cpus re_ok (cmds (spelled_items c)) (default_config cpus)) = given.
  Proof.
    destruct Exp as (Hv & Hp & Hs & (Ne & _) & (Nr & Fr) & (Nb & Fb) & (Nf & Ff) & St & Ft).
    destruct (push_all (c_targets c) St) as [Pt Lt].
    assert (Fr' : forall x, In x (exclusion_regex c) -> re_ok x = true) by (intros x I; apply isort_In in I; rewrite Forall_forall in Fr; apply Fr; exact I).
    assert (Fb' : forall x, In x (c_backports c) -> is_backport x = true) by (intros x I; apply is_backport_iff; auto).
    assert (Ff' : forall x, In x (c_features c) -> is_feature x = true) by (intros x I; apply is_feature_iff; auto).
    unfold spelled_items, set_items. rewrite !cmds_app, !cmds_each, cmds_targets, <- !app_assoc.
    assert (Ef : cmds (format_items c) = []) by (unfold format_items; destruct (c_format c); reflexivity). rewrite Ef, app_nil_r.
    assert (Ec : cmds (flag_items c) = [CmdQuiet (c_quiet c); CmdPrintVisits (c_print_visits c); CmdProcesses (c_processes c); CmdIgnoreIncomp (c_ignore_incomp c);
      CmdPessimistic (c_pessimistic c); CmdShowTips (c_show_tips c); CmdHidden (c_analyze_hidden c); CmdAbsolute (c_make_paths_absolute c); CmdEvalAnnotations (c_eval_annotations c);
      CmdViolations (c_only_show_violations c); CmdParseComments (c_parse_comments c); CmdSymlinks (c_scan_symlink_folders c)]) by reflexivity.
    assert (Ev : forall s, c_verbose s = 0 -> all_accepted cpus re_ok s (cmds (verbose_items c)) /\ run_cmds cpus re_ok (cmds (verbose_items c)) s = w_verbose (c_verbose c) s).
    { intros s Z. unfold verbose_items. destruct (Z.ltb_spec 0 (c_verbose c)).
      - split; [constructor; [exact I|constructor]|reflexivity].
      - split; [constructor|]. assert (c_verbose c = 0) as -> by lia. destruct s; cbn in *; subst; reflexivity. }
    set (s1 := run_cmds cpus re_ok (cmds (flag_items c)) (default_config cpus)).
    assert (E1 : s1 = mkConfig (c_quiet c) 0 (c_print_visits c) (c_processes c) (c_ignore_incomp c) (c_pessimistic c) (c_show_tips c) (c_analyze_hidden c) [] []
      (c_make_paths_absolute c) [] [] [] (c_eval_annotations c) (c_only_show_violations c) (c_parse_comments c) (c_scan_symlink_folders c) FDefault).
    { unfold s1. rewrite Ec. cbn. unfold set_processes. destruct (Z.ltb_spec 0 (c_processes c)); [reflexivity|lia]. }
    destruct (Ev s1 ltac:(rewrite E1; reflexivity)) as [A2 R2]. rewrite !run_app'. fold s1. rewrite R2. rewrite run_exclusions, run_regex, run_backports, run_features by assumption.
    match goal with |- _ /\ with_format _ (run_cmds _ _ _ ?s) = _ => destruct (run_targets (c_targets c) Ft s) as [At Rt]; [rewrite E1; cbn; exact Lt|] end.
    split.
    - apply accepted_app; [rewrite Ec; repeat (constructor; [first [exact I|exact Hp]|]); constructor|]. fold s1.
      apply accepted_app; [exact A2|]. rewrite R2. apply accepted_app; [apply accepted_map; intros; exact I|]. rewrite run_exclusions.
      apply accepted_app; [apply accepted_map; intros s x J; exact (Fr' x J)|]. rewrite run_regex by assumption.
      apply accepted_app; [apply accepted_map; intros s x J; exact (Fb x J)|]. rewrite run_backports by assumption.
      apply accepted_app; [apply accepted_map; intros s x J; exact (Ff x J)|]. rewrite run_features by assumption. exact At.
    - rewrite Rt, E1. cbn [w_verbose w_exclusions_set w_exclusion_regex_set w_backports w_features w_targets c_exclusions_set c_exclusion_regex_set c_backports c_features c_targets
        c_quiet c_verbose c_print_visits c_processes c_ignore_incomp c_pessimistic c_show_tips c_analyze_hidden c_make_paths_absolute c_eval_annotations c_only_show_violations c_parse_comments c_scan_symlink_folders c_format].
      rewrite Pt. assert (Ne' : NoDup (exclusions c)) by (apply isort_NoDup; exact Ne). assert (Nr' : NoDup (exclusion_regex c)) by (apply isort_NoDup; exact Nr).
      rewrite !add_all_new by (cbn; assumption). unfold given, override_from. rewrite !dedup_id by assumption. cbn [app c_format].
      destruct (c_format c); reflexivity.
  Qed.
End Spelled.

(** ** The first loop *)
Lemma preparse_spelled cwd ef l r n ac : Forall (item_ok ef) l -> (forall w e, In (IOpt w e) l -> forall f, e <> EConfig f) -> (forall i, In i l -> exists w e, i = IOpt w e) ->
  preparse cwd (command_line l ++ r) n ac = preparse cwd r n ac.
Proof.
  induction l as [|i l IH]; intros F N O; [reflexivity|]. inversion F as [|? ? Fi Fl]; subst. destruct (O i (or_introl eq_refl)) as (w & e & ->).
  change (command_line (IOpt w e :: l)) with (w ++ command_line l). rewrite <- app_assoc, (preparse_option ef cwd w e) by exact Fi.
  assert (E : match e with EConfig f => Some (abspath cwd f) | _ => ac end = ac).
  { destruct e as [m|f| |f]; try reflexivity. contradiction (N w (EConfig f) (or_introl eq_refl) f eq_refl). }
  rewrite E. apply IH; [assumption|intros w' e' I; apply (N w' e'); right; exact I|intros j I; apply O; right; exact I].
Qed.
Lemma preparse_rest cwd rest : (forall a, In a rest -> ~ In a ["-c"; "--config-file"; "--no-config-file"]) -> forall n ac,
  preparse cwd rest n ac = match preparse cwd rest false None with PreGo _ _ => PreGo n ac | x => x end.
Proof.
  induction rest as [|a r IH]; intros N n ac; [reflexivity|]. cbn [preparse].
  assert (Na := N a (or_introl eq_refl)).
  assert (E1 : String.eqb a "--no-config-file" = false) by (apply String.eqb_neq; intros ->; apply Na; cbn; tauto).
  assert (E2 : mem a ["--config-file"; "-c"] = false).
  { destruct (mem a ["--config-file"; "-c"]) eqn:M; [|reflexivity]. apply mem_In in M. exfalso. apply Na. cbn in *. tauto. }
  rewrite E1, E2. destruct (mem a ["--help"; "-h"]); [reflexivity|]. destruct (mem a ["--version"; "-V"]); [reflexivity|].
  apply IH. intros b I. apply N. right. exact I.
Qed.

(** ** The second loop from states that differ in the position *)
Definition moved (k : nat) (s : pstate) : pstate := mkP (p_config s) (k + p_pos s) (p_versions s) (p_fmt s).
Definition moved_step (k : nat) (x : step) : step := match x with SGo s => SGo (moved k s) | y => y end.
Section Loop.
  Context (cpus : Z) (re_ok : string -> bool) (ef : string -> option (list string)).
  Lemma arg_moved k a next s : parse_arg cpus re_ok ef a next (moved k s) = moved_step k (parse_arg cpus re_ok ef a next s).
  Proof.
    assert (Ad : forall n f, adv n f (moved k s) = moved_step k (adv n f s)) by (intros n f; cbn; unfold moved; cbn; rewrite Nat.add_assoc; reflexivity).
    unfold parse_arg. change (p_config (moved k s)) with (p_config s).
    repeat match goal with
    | |- (if ?b then _ else _) = _ => destruct b
    | |- match flag_effect a with _ => _ end = _ => destruct (flag_effect a)
    | |- match ?n with _ => _ end = _ => destruct n
    | |- (let (_, _) := ?n in _) = _ => destruct n
    end; try apply Ad; try reflexivity.
    all: cbn; unfold moved; cbn; rewrite ?Nat.add_assoc; reflexivity.
  Qed.
  Lemma loop_moved k l : forall s, parse_loop cpus re_ok ef l (moved k s) = moved_step k (parse_loop cpus re_ok ef l s).
  Proof.
    induction l as [|a l IH]; intros s; [reflexivity|]. cbn [parse_loop]. rewrite arg_moved.
    destruct (parse_arg cpus re_ok ef a (hd_error l) s) as [s'| |]; cbn [moved_step]; [apply IH|reflexivity|reflexivity].
  Qed.
  Lemma loop_plain l : Forall plain_arg l -> forall s, parse_loop cpus re_ok ef l s = SGo s.
  Proof. induction 1 as [|a l H _ IH]; intros s; [reflexivity|]. cbn [parse_loop]. rewrite parse_arg_plain by exact H. apply IH. Qed.
End Loop.

(** ** What follows parsing depends on the configuration only for runs over files *)
Definition seen (x : res (config * parse_out)) : res (option config * parse_out) :=
  match x with
  | Ok (c, OPaths p v l) => Ok (Some c, OPaths p v l)
  | Ok (_, o) => Ok (None, o)
  | Err e => Err e
  end.
Lemma main_seen w fuel args d args' :
  seen (parse (w_cpus w) (w_re_ok w) (w_excl_file w) (w_cwd w) (w_cfg_file w) (w_detected w) args (default_config (w_cpus w))) =
  seen (parse (w_cpus w) (w_re_ok w) (w_excl_file w) (w_cwd w) (w_cfg_file w) (Ok d) args' (default_config (w_cpus w))) ->
  main w fuel args = main (reaching d w) fuel args'.
Proof.
  intros H. unfold main, reaching. cbn [w_cpus w_re_ok w_excl_file w_cwd w_cfg_file w_detected].
  destruct (parse (w_cpus w) (w_re_ok w) (w_excl_file w) (w_cwd w) (w_cfg_file w) (w_detected w) args (default_config (w_cpus w))) as [[c [n b|n|p v l]]|x],
    (parse (w_cpus w) (w_re_ok w) (w_excl_file w) (w_cwd w) (w_cfg_file w) (Ok d) args' (default_config (w_cpus w))) as [[c' [n' b'|n'|p' v' l']]|x'];
    cbn in H; try discriminate; injection H; intros; subst; reflexivity.
Qed.

Section Same.
  Context (w : world) (c : config) (t f : string) (rest : list string).
  Hypothesis Exp : expressible (w_re_ok w) c.
  Hypothesis Und : Forall undashed (c_exclusions_set c ++ c_exclusion_regex_set c).
  Hypothesis Txt : text_of (written c) t.
  Hypothesis Beh : behind c rest.
  Let parse' := parse (w_cpus w) (w_re_ok w) (w_excl_file w) (w_cwd w) (w_cfg_file w).
  Let loop' := parse_loop (w_cpus w) (w_re_ok w) (w_excl_file w).
  Let c0 := given (w_cpus w) c.

  Lemma behind_rest : forall a, In a rest -> ~ In a ["-c"; "--config-file"; "--no-config-file"].
  Proof.
    unfold behind in Beh. destruct (c_format c); [exact Beh|]. intros a I J. rewrite Forall_forall in Beh. specialize (Beh a I).
    destruct J as [<-|[<-|[<-|[]]]]; exact (Beh _ eq_refl).
  Qed.

  Definition ended_at (args : list string) (note : option string) (x : step) : res (config * parse_out) :=
    match x with SGo s => Ok (finish args note s) | SFail => Ok (c0, OCode 1) | SRaise e => Err e end.
  Definition pre_rest : pre := preparse (w_cwd w) rest false None.
  Definition told (args : list string) (note : option string) (x : step) : res (config * parse_out) :=
    match pre_rest with
    | PreHelp => Ok (c0, OUsage 0 true)
    | PreVersion => Err (SystemExit 0)
    | PreMissingFile => Ok (c0, OCode 1)
    | PreGo _ _ => ended_at args note x
    end.
  Lemma finish_moved k (pre0 : list string) note s : List.length pre0 = k ->
    finish (pre0 ++ rest) note (moved k s) = finish rest note s.
  Proof.
    intros L. unfold finish, moved. cbn [p_config p_fmt p_pos p_versions].
    assert (E : skipn (k + p_pos s) (pre0 ++ rest) = skipn (p_pos s) rest).
    { subst k. clear. induction pre0 as [|x l IH]; [reflexivity|exact IH]. }
    rewrite E. reflexivity.
  Qed.
  Lemma moved_told k (pre : list string) note s : List.length pre = k ->
    told (pre ++ rest) note (loop' rest (moved k s)) = told rest note (loop' rest s).
  Proof.
    intros L. unfold told, loop'. rewrite loop_moved. destruct pre_rest; try reflexivity.
    destruct (parse_loop (w_cpus w) (w_re_ok w) (w_excl_file w) rest s) as [s'| |]; try reflexivity. cbn [moved_step ended_at]. rewrite finish_moved by exact L. reflexivity.
  Qed.

  (** The file, named or found. *)
  Lemma file_named d : undashed f -> w_cfg_file w (abspath (w_cwd w) f) = cfg_of_text (w_cpus w) t ->
    seen (parse' (Ok d) ("-c" :: f :: rest) (default_config (w_cpus w))) = seen (told rest None (loop' rest (mkP c0 0 false None))).
  Proof.
    intros Fu Fc. assert (Fp := undashed_plain f Fu). unfold parse', parse.
    assert (E : preparse (w_cwd w) ("-c" :: f :: rest) false None = preparse (w_cwd w) (f :: rest) false (Some (abspath (w_cwd w) f))) by reflexivity.
    rewrite E, preparse_plain by exact Fp. rewrite (preparse_rest (w_cwd w) rest behind_rest). fold pre_rest.
    assert (L : parse_loop (w_cpus w) (w_re_ok w) (w_excl_file w) ("-c" :: f :: rest) (mkP c0 0 false None) = loop' rest (moved 2 (mkP c0 0 false None))).
    { change (parse_loop (w_cpus w) (w_re_ok w) (w_excl_file w) (f :: rest) (mkP c0 2 false None) = loop' rest (moved 2 (mkP c0 0 false None))).
      rewrite parse_loop_cons, parse_arg_plain by exact Fp. reflexivity. }
    assert (M := moved_told 2 ["-c"; f] None (mkP c0 0 false None) eq_refl). unfold told in *.
    destruct pre_rest; try reflexivity. rewrite Fc, (written_read (w_cpus w) (w_re_ok w) c t Exp Txt).
    change (override_from c (default_config (w_cpus w))) with c0. rewrite L.
    change ("-c" :: f :: rest) with (["-c"; f] ++ rest). rewrite <- M. reflexivity.
  Qed.
  Lemma file_found : rest <> [] -> w_cfg_file w f = cfg_of_text (w_cpus w) t ->
    seen (parse' (Ok (Some f)) rest (default_config (w_cpus w))) = seen (told rest (Some f) (loop' rest (mkP c0 0 false None))).
  Proof.
    intros Ne Fc. unfold parse', parse. assert (E : exists a r, rest = a :: r) by (destruct rest as [|a r]; [congruence|eauto]).
    destruct E as (a & r & E). rewrite E. rewrite <- E.
    assert (P := preparse_rest (w_cwd w) rest behind_rest false None). fold pre_rest in P |- *. unfold told.
    destruct pre_rest; try reflexivity. injection P as -> ->.
    rewrite Fc, (written_read (w_cpus w) (w_re_ok w) c t Exp Txt). reflexivity.
  Qed.

  (** The options. *)
  Lemma options_said : seen (parse' (Ok None) (spelled c ++ rest) (default_config (w_cpus w))) = seen (told rest None (loop' rest (mkP c0 0 false None))).
  Proof.
    assert (F := spelled_ok (w_re_ok w) (w_excl_file w) c Exp Und). destruct (spelled_run (w_cpus w) (w_re_ok w) c Exp) as [A R].
    assert (Opt : forall i, In i (spelled_items c) -> (exists w e, i = IOpt w e /\ (forall g, e <> EConfig g) /\ e <> EVersions)).
    { intros i I. unfold spelled_items, set_items in I. rewrite !in_app_iff in I.
      assert (Fl : forall b on off m, exists w e, flagi b on off m = IOpt w e /\ (forall g, e <> EConfig g) /\ e <> EVersions) by (intros; eexists _, _; split; [reflexivity|split; discriminate]).
      assert (Ea : forall o m l, In i (eachi o m l) -> exists w e, i = IOpt w e /\ (forall g, e <> EConfig g) /\ e <> EVersions)
        by (intros o m l J; apply in_map_iff in J as (x & <- & _); eexists _, _; split; [reflexivity|split; discriminate]).
      destruct I as [[I|[I|[I|[I|[I|[I|I]]]]]]|I]; try (eapply Ea; exact I).
      - unfold flag_items in I. repeat (destruct I as [<-|I]; [first [apply Fl|eexists _, _; split; [reflexivity|split; discriminate]]|]). destruct I.
      - unfold verbose_items in I. destruct (0 <? c_verbose c); [|destruct I]. destruct I as [<-|[]]. eexists _, _; split; [reflexivity|split; discriminate].
      - apply in_map_iff in I as (x & <- & _). eexists _, _; split; [reflexivity|split; discriminate].
      - unfold format_items in I. destruct (c_format c); [destruct I|]. destruct I as [<-|[]]. eexists _, _; split; [reflexivity|split; discriminate]. }
    unfold parse', parse. rewrite <- spelled_line.
    assert (P : preparse (w_cwd w) (command_line (spelled_items c) ++ rest) false None = pre_rest).
    { apply (preparse_spelled (w_cwd w) (w_excl_file w)); [exact F| |].
      - intros w0 e I. destruct (Opt _ I) as (w1 & e1 & E & N & _). injection E as <- <-. exact N.
      - intros i I. destruct (Opt _ I) as (w1 & e1 & E & _). exists w1, e1. exact E. }
    assert (Ne : exists a r, command_line (spelled_items c) ++ rest = a :: r) by (rewrite spelled_line; unfold spelled; eexists _, _; reflexivity).
    destruct Ne as (a & r & Ne). rewrite Ne. rewrite <- Ne. rewrite P.
    assert (P' := preparse_rest (w_cwd w) rest behind_rest false None). fold pre_rest in P'. unfold told.
    destruct pre_rest as [| | |nc ac]; try reflexivity. injection P' as -> ->.
    rewrite (loop_items (w_cpus w) (w_re_ok w) (w_excl_file w)) by assumption.
    set (s1 := items_state (w_cpus w) (w_re_ok w) (spelled_items c) (mkP (default_config (w_cpus w)) 0 false None)).
    assert (E1 : s1 = moved (List.length (spelled c)) (mkP (run_cmds (w_cpus w) (w_re_ok w) (cmds (spelled_items c)) (default_config (w_cpus w))) 0 false
                        (match c_format c with FDefault => None | FParsable => Some FParsable end))).
    { assert (X1 : p_config s1 = run_cmds (w_cpus w) (w_re_ok w) (cmds (spelled_items c)) (default_config (w_cpus w))) by apply items_config.
      assert (X2 : p_pos s1 = List.length (spelled c)).
      { unfold s1. rewrite items_pos. cbn [p_pos Nat.add]. rewrite <- spelled_line. clear - Opt. revert Opt. generalize (spelled_items c). intros l O.
        induction l as [|i l IH]; [reflexivity|]. destruct (O i (or_introl eq_refl)) as (w & e & -> & _).
        change (command_line (IOpt w e :: l)) with (w ++ command_line l). rewrite app_length, <- IH by (intros j J; apply O; right; exact J). reflexivity. }
      assert (X3 : p_versions s1 = false).
      { apply Bool.not_true_iff_false. intros V. unfold s1 in V. apply items_versions in V as [V|[w0 V]]; [discriminate|]. destruct (Opt _ V) as (w1 & e1 & E & _ & N). injection E as <- <-. exact (N eq_refl). }
      assert (X4 : p_fmt s1 = match c_format c with FDefault => None | FParsable => Some FParsable end).
      { unfold s1. assert (L := items_fmt (w_cpus w) (w_re_ok w) (spelled_items c) (mkP (default_config (w_cpus w)) 0 false None) eq_refl).
        set (o := p_fmt (items_state (w_cpus w) (w_re_ok w) (spelled_items c) (mkP (default_config (w_cpus w)) 0 false None))) in *. clearbody o.
        assert (Fo : forall w0 g, In (IOpt w0 (EFormat g)) (spelled_items c) -> c_format c = FParsable /\ g = FParsable).
        { intros w0 g I. unfold spelled_items, set_items in I. rewrite !in_app_iff in I.
          assert (Ea : forall o m l, ~ In (IOpt w0 (EFormat g)) (eachi o m l)) by (intros x m l J; apply in_map_iff in J as (y & J & _); discriminate).
          destruct I as [[I|[I|[I|[I|[I|[I|I]]]]]]|I]; try (exfalso; eapply Ea; exact I).
          - exfalso. unfold flag_items in I. repeat (destruct I as [I|I]; [discriminate|]). destruct I.
          - exfalso. unfold verbose_items in I. destruct (0 <? c_verbose c); [|destruct I]. destruct I as [I|[]]. discriminate.
          - exfalso. apply in_map_iff in I as (y & I & _). discriminate.
          - unfold format_items in I. destruct (c_format c); [destruct I|]. destruct I as [I|[]]. injection I as <- <-. split; reflexivity. }
        destruct o as [g|]; cbn [last_format] in L.
        - destruct L as (a0 & w0 & b0 & L & _). destruct (Fo w0 g) as [-> ->]; [rewrite L; apply in_or_app; right; left; reflexivity|reflexivity].
        - destruct (c_format c) eqn:Fm; [reflexivity|]. exfalso. apply (L ["--format"; "parsable"] FParsable). unfold spelled_items. apply in_or_app. right.
          unfold format_items. rewrite Fm. left. reflexivity. }
      clearbody s1. destruct s1 as [a1 a2 a3 a4]. cbn [p_config p_pos p_versions p_fmt] in X1, X2, X3, X4. rewrite X1, X2, X3, X4. unfold moved.
      cbn [p_config p_pos p_versions p_fmt]. rewrite Nat.add_0_r. reflexivity. }
    rewrite E1. clear s1 E1. fold loop'.
    assert (K : forall x, seen (match loop' rest (moved (List.length (spelled c)) x) with SGo s => Ok (finish (command_line (spelled_items c) ++ rest) None s) | SFail => Ok (default_config (w_cpus w), OCode 1) | SRaise e => Err e end) =
      seen (ended_at rest None (loop' rest x))).
    { intros x. unfold loop'. rewrite loop_moved. destruct (parse_loop (w_cpus w) (w_re_ok w) (w_excl_file w) rest x) as [s'| |]; try reflexivity.
      cbn [moved_step ended_at]. rewrite spelled_line, finish_moved by reflexivity. reflexivity. }
    rewrite K. destruct (c_format c) eqn:Fm; cbn [with_format] in R.
    - rewrite R. reflexivity.
    - unfold behind in Beh. rewrite Fm in Beh.
      assert (Pl : Forall plain_arg rest) by (eapply Forall_impl; [|exact Beh]; intros x; apply undashed_plain).
      unfold loop'. rewrite !loop_plain by exact Pl. cbn [ended_at]. unfold finish. cbn [p_fmt p_config p_pos p_versions]. rewrite R. reflexivity.
  Qed.

  Lemma same_named fuel d : w_detected w = Ok None -> undashed f -> w_cfg_file w (abspath (w_cwd w) f) = cfg_of_text (w_cpus w) t ->
    main w fuel (spelled c ++ rest) = main (reaching d w) fuel ("-c" :: f :: rest).
  Proof.
    intros D Fu Fc. apply main_seen. rewrite D. transitivity (seen (told rest None (loop' rest (mkP c0 0 false None)))).
    - exact options_said.
    - symmetry. exact (file_named d Fu Fc).
  Qed.

  Lemma print_cons x l : print_lines (x :: l) = x +++ nl +++ print_lines l.
  Proof. unfold print_lines. cbn [map sconcat fold_right]. rewrite app_assoc_s. reflexivity. Qed.
  Lemma finish_note g args s :
    finish args (Some g) s = finish args None s \/
    exists c' p v, finish args None s = (c', OPaths p v []) /\ finish args (Some g) s = (c', OPaths p v ["Using detected config: " +++ g]).
  Proof.
    unfold finish. cbv zeta.
    match goal with |- (if ?b then _ else _) = _ \/ _ => destruct b end; [left; reflexivity|].
    match goal with |- (if ?b then _ else _) = _ \/ _ => destruct b end; [left; reflexivity|].
    match goal with |- context [fmt_eqb ?a ?b] => destruct (fmt_eqb a b) end; [left; reflexivity|].
    unfold nprint. match goal with |- context [c_quiet ?x] => destruct (c_quiet x) end; [left; reflexivity|]. right. eexists _, _, _. split; reflexivity.
  Qed.
  Lemma same_found fuel : rest <> [] -> w_detected w = Ok None -> w_cfg_file w f = cfg_of_text (w_cpus w) t ->
    same_but_note f (main w fuel (spelled c ++ rest)) (main (reaching (Some f) w) fuel rest).
  Proof.
    intros Ne D Fc. assert (A := options_said). assert (B := file_found Ne Fc).
    assert (N : seen (told rest (Some f) (loop' rest (mkP c0 0 false None))) = seen (told rest None (loop' rest (mkP c0 0 false None))) \/
      exists c' p v, seen (told rest None (loop' rest (mkP c0 0 false None))) = Ok (Some c', OPaths p v []) /\
        seen (told rest (Some f) (loop' rest (mkP c0 0 false None))) = Ok (Some c', OPaths p v ["Using detected config: " +++ f])).
    { unfold told. destruct pre_rest; [left; reflexivity|left; reflexivity|left; reflexivity|].
      destruct (loop' rest (mkP c0 0 false None)) as [s| |]; [|left; reflexivity|left; reflexivity]. cbn [ended_at].
      destruct (finish_note f rest s) as [->|(c' & p & v & -> & ->)]; [left; reflexivity|right; exists c', p, v; split; reflexivity]. }
    destruct N as [N|(c' & p & v & N1 & N2)].
    - left. symmetry. apply main_seen. rewrite D. unfold parse' in *. congruence.
    - rewrite N1 in A. rewrite N2 in B. unfold parse' in A, B. unfold main, reaching. cbn [w_cpus w_re_ok w_excl_file w_cwd w_cfg_file w_detected].
      rewrite D. destruct (parse (w_cpus w) (w_re_ok w) (w_excl_file w) (w_cwd w) (w_cfg_file w) (Ok None) (spelled c ++ rest) (default_config (w_cpus w))) as [[c1 [n b|n|p1 v1 l1]]|x];
        cbn [seen] in A; try discriminate. injection A as -> -> -> ->.
      destruct (parse (w_cpus w) (w_re_ok w) (w_excl_file w) (w_cwd w) (w_cfg_file w) (Ok (Some f)) rest (default_config (w_cpus w))) as [[c1 [n b|n|p1 v1 l1]]|x];
        cbn [seen] in B; try discriminate. injection B as -> -> -> ->.
      change (found_files (mkWorld (w_cpus w) (w_major w) (w_cwd w) (w_fs w) (w_re_ok w) (w_search w) (w_excl_file w) (w_cfg_file w) (Ok (Some f)) (w_file w) (w_ending w) (w_hooks w)) c' fuel p)
        with (found_files w c' fuel p). cbv zeta.
      destruct (found_files w c' fuel p) as [[files|x]|]; [| |left; reflexivity]; right.
      + change (run_files (mkWorld (w_cpus w) (w_major w) (w_cwd w) (w_fs w) (w_re_ok w) (w_search w) (w_excl_file w) (w_cfg_file w) (Ok (Some f)) (w_file w) (w_ending w) (w_hooks w)) c' v files)
          with (run_files w c' v files).
        destruct (run_files w c' v files) as [out r]. eexists _, _. split; [reflexivity|]. cbn [app]. rewrite print_cons, !app_assoc_s. reflexivity.
      + eexists _, _. split; [reflexivity|]. cbn [app]. rewrite print_cons. reflexivity.
  Qed.
End Same.
