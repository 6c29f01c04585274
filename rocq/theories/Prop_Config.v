(** C16-C22: configuration objects and files. *)
From Coq Require Import Permutation Sorted.
From Verif Require Import PyBase PyLemmas Utility RulesData Rules Config Heap
  Spec_Base Spec_Utility Proof_Utility Spec_Config Proof_Config.

(** ** C16 *)
Theorem c16_at_most_two_sorted : forall cpus re_ok c, reach cpus re_ok c ->
  (List.length (c_targets c) <= 2)%nat /\ sorted_by_version (c_targets c).
Proof. exact targets_inv. Qed.
Print Assumptions c16_at_most_two_sorted.

(** Each target was given by a successful add (or came with override_from) and not forgotten since. *)
Theorem c16_targets_given : forall cpus re_ok l c t,
  (List.length (c_targets c) <= 2)%nat ->
  (forall o, In (CmdOverrideFrom o) l -> List.length (c_targets o) <= 2)%nat ->
  (In t (c_targets (run_cmds cpus re_ok l c)) <->
   (exists l1 m l2, l = l1 ++ m :: l2 /\ adds_target (run_cmds cpus re_ok l1 c) m t /\
                    Forall (fun x => ~ forgets_targets x) l2) \/
   (Forall (fun m => ~ forgets_targets m) l /\ In t (c_targets c))).
Proof. exact targets_history. Qed.
Print Assumptions c16_targets_given.

Theorem c16_add_target_answer : forall a c, (List.length (c_targets c) <= 2)%nat ->
  add_answer a c (snd (add_target a c)) /\
  (snd (add_target a c) <> RTrue -> fst (add_target a c) = c) /\
  (snd (add_target a c) = RTrue -> exists t, arg_target a t /\
     Permutation (c_targets (fst (add_target a c))) (t :: c_targets c)).
Proof. exact (add_target_answer (fun _ => true)). Qed.
Print Assumptions c16_add_target_answer.

Example c16_case :
  let c := run_cmds 4 (fun _ => true)
             [CmdAddTarget (TStr "3.9-"); CmdClearTargets; CmdAddTarget (TStr "3,4"); CmdAddTarget (TStr "9.9");
              CmdAddTarget (TTup (2, 7) true); CmdAddTarget (TPair false (3, 0))] (default_config 4) in
  reach 4 (fun _ => true) c /\ c_targets c = [(true, (2, 7)); (true, (3, 4))].
Proof.
  split; [|vm_compute; reflexivity].
  repeat (apply reach_step; [|intros o H; discriminate H]). apply reach_new.
Qed.

(** ** C17 *)
Theorem c17_excluded_since_clear : forall cpus re_ok l c n,
  is_excluded (run_cmds cpus re_ok l c) n = true <->
  since (fun m => adds_exclusion m n) forgets_exclusions l \/
  (Forall (fun m => ~ forgets_exclusions m) l /\ is_excluded c n = true).
Proof. exact excluded_history. Qed.
Print Assumptions c17_excluded_since_clear.

Theorem c17_spelled_forms : forall c,
  (forall f k, is_excluded_kwarg c f k = is_excluded c (f ++ "(" ++ k ++ ")")) /\
  (forall n, is_excluded_ceh c n = is_excluded c ("ceh=" ++ n)) /\
  (forall n, is_excluded_ce c n = is_excluded c ("ce=" ++ n)).
Proof. exact excluded_forms. Qed.
Print Assumptions c17_spelled_forms.

Theorem c17_listed_sorted_once : forall cpus re_ok c, reach cpus re_ok c ->
  (forall n, In n (exclusions c) <-> is_excluded c n = true) /\
  StronglySorted (fun a b => str_leb a b = true) (exclusions c) /\ NoDup (exclusions c).
Proof. exact exclusions_listed. Qed.
Print Assumptions c17_listed_sorted_once.

Example c17_case :
  let c := run_cmds 4 (fun _ => true)
             [CmdAddExclusion "a"; CmdClearExclusions; CmdAddExclusion "z.f(k)"; CmdAddExclusion "ceh=q";
              CmdAddExclusion "z.f(k)"; CmdAddExclusionFile (Some [" m "])] (default_config 4) in
  reach 4 (fun _ => true) c /\ exclusions c = ["ceh=q"; "m"; "z.f(k)"] /\
  is_excluded c "a" = false /\ is_excluded_kwarg c "z.f" "k" = true.
Proof.
  split; [|vm_compute; auto].
  repeat (apply reach_step; [|intros o H; discriminate H]). apply reach_new.
Qed.

(** ** C18 *)
Theorem c18_only_known : forall cpus re_ok c, reach cpus re_ok c ->
  (forall n, In n (c_backports c) -> In n (map (fun e => fst (fst e)) backports_table)) /\
  (forall n, In n (c_features c) -> In n (map fst features_table)).
Proof. exact known_backports. Qed.
Print Assumptions c18_only_known.

Theorem c18_processes_positive : forall cpus re_ok, 0 < cpus ->
  forall c, reach cpus re_ok c -> 0 < c_processes c.
Proof. exact processes_positive. Qed.
Print Assumptions c18_processes_positive.

Theorem c18_backports_since_clear : forall cpus re_ok l c n,
  In n (c_backports (run_cmds cpus re_ok l c)) <->
  since (fun m => adds_backport m n) forgets_backports l \/
  (Forall (fun m => ~ forgets_backports m) l /\ In n (c_backports c)).
Proof. exact backports_history. Qed.
Print Assumptions c18_backports_since_clear.

Theorem c18_features_since_clear : forall cpus re_ok l c n,
  In n (c_features (run_cmds cpus re_ok l c)) <->
  since (fun m => adds_feature m n) forgets_features l \/
  (Forall (fun m => ~ forgets_features m) l /\ In n (c_features c)).
Proof. exact features_history. Qed.
Print Assumptions c18_features_since_clear.

Theorem c18_unknown_backport_refused : forall n c,
  (snd (add_backport n c) = true <-> In n (map (fun e => fst (fst e)) backports_table)) /\
  (snd (add_backport n c) = false -> fst (add_backport n c) = c).
Proof. exact backport_refused. Qed.
Print Assumptions c18_unknown_backport_refused.

Theorem c18_unknown_feature_refused : forall n c,
  (snd (enable_feature n c) = true <-> In n (map fst features_table)) /\
  (snd (enable_feature n c) = false -> fst (enable_feature n c) = c).
Proof. exact feature_refused. Qed.
Print Assumptions c18_unknown_feature_refused.

Example c18_case :
  let c := run_cmds 4 (fun _ => true)
             [CmdAddBackport "enum"; CmdAddBackport "nope"; CmdEnableFeature "fstring-self-doc";
              CmdEnableFeature "nope"; CmdProcesses (-3)] (default_config 4) in
  c_backports c = ["enum"] /\ c_features c = ["fstring-self-doc"] /\ c_processes c = 4.
Proof. vm_compute. auto. Qed.

(** ** C19, the part about Config: choosing the format sets its settings, and they stay unless a call
    asks for less. (Command lines: Prop_Args.v.) *)
Theorem c19_format_sets_settings : forall f c, parsable_settings (set_format f c).
Proof. exact set_format_settings. Qed.
Print Assumptions c19_format_sets_settings.

Theorem c19_settings_kept_partial : forall cpus re_ok c m, keeps_settings m -> parsable_settings c ->
  parsable_settings (run_cmd cpus re_ok c m).
Proof. exact settings_step. Qed.
Print Assumptions c19_settings_kept_partial.

Example c19_case : ~ parsable_settings (run_cmd 4 (fun _ => true) (set_format FParsable (default_config 4)) (CmdVerbose 1)).
Proof. unfold parsable_settings. vm_compute. intros H. destruct (H eq_refl) as [K _]. apply K. reflexivity. Qed.

(** ** C20 *)
(** False of the code: [b] chose the parsable format and lowered its verbosity afterwards; the copy
    gets the format's settings again. *)
Theorem c20_override_equal_refuted : exists cpus re_ok a b, reach cpus re_ok a /\ reach cpus re_ok b /\
  ~ same_answers (override_from b a) b.
Proof.
  exists 4, (fun _ => true), (default_config 4),
    (run_cmds 4 (fun _ => true) [CmdFormat FParsable; CmdVerbose 0] (default_config 4)).
  split; [constructor|]. split.
  - repeat (apply reach_step; [|intros o H; discriminate H]). apply reach_new.
  - intros [_ [H _]]. vm_compute in H. discriminate.
Qed.
Print Assumptions c20_override_equal_refuted.

Theorem c20_override_equal_partial : forall cpus re_ok a b, reach cpus re_ok b -> parsable_settings b ->
  same_answers (override_from b a) b.
Proof. intros cpus re_ok a b R. apply override_same. eapply sets_ok_reach; eauto. Qed.
Print Assumptions c20_override_equal_partial.

(** The object model: every call changes what the object answers as in the value model. *)
Theorem c20_objects_refine_values : forall cpus re_ok h a m, obj_ok h a ->
  view (hrun cpus re_ok h a m) a =
  match m with
  | HCmd (CmdOverrideFrom _) => view h a
  | HCmd c => run_cmd cpus re_ok (view h a) c
  | HOverride b => run_cmd cpus re_ok (view h a) (CmdOverrideFrom (view h b))
  end.
Proof. exact hrun_view. Qed.
Print Assumptions c20_objects_refine_values.

(** Two objects, made one after the other. *)
Definition two_objects : heap :=
  heap_reset 4 (heap_reset 4 (mkHeap (fun _ => mkH (default_config 4) 0 0 0 0) (fun _ => []) (fun _ => [])
                                     (fun _ => mkF FDefault None) 0) 0) 1.
Example two_objects_ok : obj_ok two_objects 0 /\ obj_ok two_objects 1 /\ apart two_objects 0 1.
Proof. vm_compute. repeat split; try lia; discriminate. Qed.

(** False of the code: after a.override_from(b), adding a backport to [a] adds it to [b]; so do
    enable_feature, add_target and the two clear calls. *)
Theorem c20_independent_refuted : exists cpus re_ok h a b m,
  a <> b /\ obj_ok h a /\ obj_ok h b /\ apart h a b /\
  view (hrun cpus re_ok (hrun cpus re_ok h a (HOverride b)) a (HCmd m)) b <> view h b.
Proof.
  exists 4, (fun _ => true), two_objects, 0%nat, 1%nat, (CmdAddBackport "enum").
  split; [lia|]. destruct two_objects_ok as [O1 [O2 O3]]. repeat split; try apply O1; try apply O2; try apply O3.
  vm_compute. discriminate.
Qed.
Print Assumptions c20_independent_refuted.

(** What does hold: calls on the copy that do not touch backports, features or the target list. *)
Theorem c20_independent_partial : forall cpus re_ok l h a b, a <> b -> obj_ok h b ->
  Forall (fun m => exists c, m = HCmd c /\ ~ touches_shared c) l ->
  view (hruns cpus re_ok (hrun cpus re_ok h a (HOverride b)) a l) b = view h b.
Proof.
  intros cpus re_ok l h a b N OB F. destruct (override_frame cpus re_ok h a b N) as [V O].
  rewrite <- V. apply private_history; auto.
Qed.
Print Assumptions c20_independent_partial.

(** Without an override two objects are independent. *)
Theorem c20_separate_objects_independent : forall cpus re_ok l h a b, Forall is_call l -> a <> b ->
  obj_ok h a -> obj_ok h b -> apart h a b ->
  view (hruns cpus re_ok h a l) b = view h b.
Proof. exact frame_history. Qed.
Print Assumptions c20_separate_objects_independent.

(** ** C21 *)
Theorem c21_config_is_what_file_says : forall cpus re_ok sec c, has_defaults sec ->
  parse_section cpus re_ok sec = Ok c -> section_says cpus re_ok sec c.
Proof. exact parse_section_says. Qed.
Print Assumptions c21_config_is_what_file_says.

Theorem c21_fails_only_when_nothing_said : forall cpus re_ok sec, has_defaults sec ->
  ((exists c, section_says cpus re_ok sec c) <-> exists c, parse_file cpus re_ok (CfgSection sec) = Some c).
Proof.
  intros cpus re_ok sec HD. cbn [parse_file]. split.
  - intros [c H]. destruct (section_says_parse cpus re_ok sec c HD H) as [c' E]. rewrite E. eauto.
  - destruct (parse_section cpus re_ok sec) as [c|] eqn:E; [|intros [c H]; discriminate].
    intros _. exists c. apply parse_section_says; auto.
Qed.
Print Assumptions c21_fails_only_when_nothing_said.

(** The hypothesis holds for every option map: the defaults are given to the parser. *)
Theorem c21_every_option_has_a_default : forall cpus opts, has_defaults (section_of cpus opts).
Proof. exact section_of_defaults. Qed.
Print Assumptions c21_every_option_has_a_default.

Theorem c21_empty_section_is_default : forall cpus re_ok, 0 < cpus ->
  parse_section cpus re_ok (section_of cpus []) = Ok (default_config cpus).
Proof. exact empty_section_default. Qed.
Print Assumptions c21_empty_section_is_default.

Example c21_case :
  let ok := section_of 4 [("quiet", Some "yes"); ("verbose", Some "2"); ("targets", Some "3.4-");
                          ("backports", Some "enum"); ("show_tips", Some "maybe"); ("format", Some "parsable")] in
  let bad := section_of 4 [("backports", Some "nope")] in
  let neg := section_of 4 [("verbose", Some "-1")] in
  (exists c, parse_section 4 (fun _ => true) ok = Ok c /\ c_quiet c = true /\ c_verbose c = 3 /\
     c_targets c = [(false, (3, 4))] /\ c_backports c = ["enum"]) /\
  parse_file 4 (fun _ => true) (CfgSection bad) = None /\ parse_file 4 (fun _ => true) (CfgSection neg) = None.
Proof. split; [eexists; vm_compute; repeat split|vm_compute; auto]. Qed.

(** ** C22: the search is a recursion on the depth of the folder, so it ends for every tree. *)
Theorem c22_nearest_config_file : forall candidate exists_in s,
  (forall f n, detect_config_file candidate exists_in s = Ok (Some (f, n)) <->
     first_hit candidate exists_in s f n /\ candidate f n = PrSection) /\
  (detect_config_file candidate exists_in s = Err ConfigError <->
     exists f n, first_hit candidate exists_in s f n /\ candidate f n = PrOtherError) /\
  (detect_config_file candidate exists_in s = Ok None <->
     forall g x, searched exists_in s g -> In x ["vermin.ini"; "vermin.conf"; ".vermin"; "setup.cfg"] ->
                 ~ stops (candidate g x)).
Proof. exact detect_iff. Qed.
Print Assumptions c22_nearest_config_file.

(** Nothing outside the searched folders, in particular above a boundary, is looked at. *)
Theorem c22_never_above_boundary : forall cand cand' ex ex' s,
  (forall g x, searched ex s g -> cand g x = cand' g x) ->
  (forall g x, searched ex s g -> ex g x = ex' g x) ->
  detect_config_file cand ex s = detect_config_file cand' ex' s.
Proof. exact detect_local. Qed.
Print Assumptions c22_never_above_boundary.

Example c22_case :
  let cand := fun f n => if (String.eqb n "setup.cfg" && (List.length f =? 1)%nat)%bool then PrSection else PrAbsent in
  let ex b := fun f x => (b && String.eqb x ".git" && (List.length f =? 2)%nat)%bool in
  detect_config_file cand (ex false) ["c"; "b"; "a"] = Ok (Some (["a"], "setup.cfg")) /\
  detect_config_file cand (ex true) ["c"; "b"; "a"] = Ok None.
Proof. vm_compute. auto. Qed.
