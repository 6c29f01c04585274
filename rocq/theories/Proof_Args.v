(** Proofs about the command line (C19, C23-C27). *)
From Verif Require Import PyBase PyLemmas Utility RulesData Rules Config Paths Formats Arguments
  Spec_Base Spec_Utility Proof_Utility Spec_Config Proof_Config Spec_Args.

(** ** Arguments that do not look like options *)
Definition dashed (s : string) : Prop := exists r, s = String "-" r.

Lemma eqb_plain : forall p r, plain_arg p -> String.eqb p (String "-" r) = false.
Proof.
  intros p r H. destruct (String.eqb_spec p (String "-" r)) as [->|]; auto. simpl in H. congruence.
Qed.
Lemma mem_plain : forall p l, plain_arg p -> (forall x, In x l -> dashed x) -> mem p l = false.
Proof.
  intros p l H D. apply mem_false. intros I. destruct (D _ I) as [r ->]. simpl in H. congruence.
Qed.
Lemma startswith_plain : forall p r, plain_arg p -> startswith (String "-" r) p = false.
Proof.
  intros [|c p] r H; auto. cbn [startswith]. destruct (Ascii.eqb_spec "-" c) as [<-|]; auto.
  simpl in H. congruence.
Qed.

Ltac plain_solve H :=
  repeat (rewrite (mem_plain _ _ H); [|simpl; intros ? ?;
            repeat match goal with K : _ \/ _ |- _ => destruct K as [<-|K] end;
            try contradiction; eexists; reflexivity]
          || rewrite (startswith_plain _ _ H) || rewrite (eqb_plain _ _ H)).

Section Args.
  Variable cpus : Z.
  Variable re_ok : string -> bool.
  Variable excl_file : string -> option (list string).
  Notation parse_arg := (parse_arg cpus re_ok excl_file).
  Notation parse_loop := (parse_loop cpus re_ok excl_file).
  Notation option_means := (option_means excl_file).

  Lemma parse_arg_plain : forall p next s, plain_arg p -> parse_arg p next s = SGo s.
  Proof.
    intros p next s H. unfold Arguments.parse_arg, flag_effect. plain_solve H. reflexivity.
  Qed.
  Lemma parse_arg_no_config : forall next s, parse_arg "--no-config-file" next s = SGo s.
  Proof. reflexivity. Qed.

  Lemma parse_loop_cons : forall a r s,
    parse_loop (a :: r) s = match parse_arg a (hd_error r) s with SGo s' => parse_loop r s' | x => x end.
  Proof. reflexivity. Qed.

  (** ** One option *)
  Definition apply_effect (e : effect) (k : nat) (s : pstate) : pstate :=
    match e with
    | ECmd m => mkP (run_cmd cpus re_ok (p_config s) m) (p_pos s + k)%nat (p_versions s) (p_fmt s)
    | EFormat f => mkP (p_config s) (p_pos s + k)%nat (p_versions s) (Some f)
    | EVersions => mkP (p_config s) (p_pos s + k)%nat true (p_fmt s)
    | EConfig _ => mkP (p_config s) (p_pos s + k)%nat (p_versions s) (p_fmt s)
    end.
  Definition accepted_effect (e : effect) (c : config) : Prop :=
    match e with ECmd m => accepted re_ok c m | _ => True end.

  Lemma flag_step : forall w m next s, In (w, m) flag_options ->
    parse_arg w next s = SGo (apply_effect (ECmd m) 1 s).
  Proof.
    intros w m next s H. unfold flag_options in H. cbn [In] in H.
    repeat (destruct H as [H|H]; [injection H as <- <-; reflexivity|]). destruct H.
  Qed.

  Lemma count_vs : forall n, count_char "v" (vs n) = Z.of_nat n.
  Proof. induction n as [|n IH]; auto. cbn [vs count_char]. change (Ascii.eqb "v" "v") with true. lia. Qed.

  Lemma verbose_step : forall n next s, (0 < n)%nat ->
    parse_arg (String "-" (vs n)) next s = SGo (apply_effect (ECmd (CmdVerbose (Z.of_nat n))) 1 s).
  Proof.
    intros [|n] next s H; [lia|]. unfold Arguments.parse_arg.
    assert (E : flag_effect (String "-" (vs (S n))) = Some (w_verbose (count_char "v" (String "-" (vs (S n)))))) by reflexivity.
    rewrite E. assert (M : mem (String "-" (vs (S n))) ["--config-file"; "-c"] = false) by reflexivity.
    rewrite M. cbn [apply_effect run_cmd]. unfold adv.
    assert (C : count_char "v" (String "-" (vs (S n))) = Z.of_nat (S n)).
    { change (count_char "v" (String "-" (vs (S n)))) with (0 + count_char "v" (vs (S n))). rewrite count_vs. lia. }
    rewrite C. reflexivity.
  Qed.

  Lemma split_no : forall x, no_eq x -> split_char "="%char x = [x].
  Proof.
    intros x H. unfold split_char. apply split_on_none. unfold no_eq in H. revert H.
    induction x as [|c x IH]; intros H; auto. cbn [list_ascii_of_string In] in *. rewrite sall_cons.
    apply andb_true_intro. split.
    - destruct (Ascii.eqb_spec "=" c) as [<-|]; [exfalso; apply H; left; auto|reflexivity].
    - apply IH. intros I. apply H. right; auto.
  Qed.

  Lemma after_eq_target : forall p x, In p ["-t="; "--target="; "-p="; "--processes="] -> no_eq x ->
    after_eq (p +++ x) = x.
  Proof.
    intros p x I N. unfold after_eq, split_char. assert (S := split_no x N). unfold split_char in S.
    simpl in I. repeat (destruct I as [<-|I]; [cbn -[Ascii.eqb]; rewrite S; reflexivity|]). destruct I.
  Qed.

  Lemma target_arg_step : forall p x next s, In p ["-t="; "--target="] -> no_eq x ->
    parse_arg (p +++ x) next s =
    match add_target (TStr x) (p_config s) with
    | (c, RTrue) => adv 1 (fun _ => c) s
    | _ => SFail
    end.
  Proof.
    intros p x next s I N.
    assert (E : after_eq (p +++ x) = x).
    { apply after_eq_target; auto. simpl in *. tauto. }
    unfold Arguments.parse_arg. rewrite E. simpl in I.
    destruct I as [<-|[<-|[]]]; reflexivity.
  Qed.
  Lemma processes_arg_step : forall p x next s, In p ["-p="; "--processes="] -> no_eq x ->
    parse_arg (p +++ x) next s =
    match py_int x with
    | None => SFail
    | Some n => if n <=? 0 then SFail else adv 1 (set_processes cpus n) s
    end.
  Proof.
    intros p x next s I N.
    assert (E : after_eq (p +++ x) = x).
    { apply after_eq_target; auto. simpl in *. tauto. }
    unfold Arguments.parse_arg. rewrite E. simpl in I.
    destruct I as [<-|[<-|[]]]; reflexivity.
  Qed.

  Lemma add_target_run : forall x c, (List.length (c_targets c) < 2)%nat ->
    (exists t, arg_target (TStr x) t) -> add_target (TStr x) c = (run_cmd cpus re_ok c (CmdAddTarget (TStr x)), RTrue).
  Proof.
    intros x c L E. cbn [run_cmd]. destruct (add_target (TStr x) c) as [c' r] eqn:A. cbn [fst]. f_equal.
    destruct (add_target_answer re_ok (TStr x) c) as [[R _] _]; [lia|]. rewrite A in R. cbn [snd] in R. apply R. auto.
  Qed.

  (** The words of one option, with whatever follows. *)
  Lemma option_step : forall w e s rest, option_means w e -> accepted_effect e (p_config s) ->
    parse_loop (w ++ rest) s = parse_loop rest (apply_effect e (List.length w) s).
  Proof.
    intros w e s rest M A. destruct M; cbn [app List.length accepted_effect] in *.
    - rewrite parse_loop_cons, (flag_step w m); auto.
    - rewrite parse_loop_cons, verbose_step; auto.
    - rewrite parse_loop_cons, target_arg_step; auto. destruct A as [A1 A2].
      rewrite add_target_run; auto.
    - rewrite parse_loop_cons, processes_arg_step; auto. rewrite H1. simpl in A.
      destruct (Z.leb_spec n 0); [lia|]. reflexivity.
    - reflexivity.
    - rewrite parse_loop_cons. cbn [hd_error].
      assert (E : parse_arg w (Some o) s = SGo (apply_effect (EFormat f) 2 s)).
      { assert (F : from_name (lower o) = Some f) by (apply from_name_iff; auto).
        simpl in H. destruct H as [<-|[<-|[]]]; unfold Arguments.parse_arg; rewrite F; reflexivity. }
      rewrite E, parse_loop_cons, parse_arg_plain; auto.
    - rewrite parse_loop_cons. cbn [hd_error].
      assert (E : parse_arg "--exclude" (Some o) s = SGo (apply_effect (ECmd (CmdAddExclusion o)) 2 s)) by reflexivity.
      rewrite E, parse_loop_cons, parse_arg_plain; auto.
    - rewrite parse_loop_cons. cbn [hd_error].
      assert (E : parse_arg "--exclude-file" (Some o) s = SGo (apply_effect (ECmd (CmdAddExclusionFile (excl_file o))) 2 s)) by reflexivity.
      rewrite E, parse_loop_cons, parse_arg_plain; auto.
    - rewrite parse_loop_cons. cbn [hd_error].
      assert (E : parse_arg "--exclude-regex" (Some o) s = SGo (apply_effect (ECmd (CmdAddExclusionRegex o)) 2 s)).
      { simpl in A. unfold Arguments.parse_arg. cbn. unfold add_exclusion_regex. rewrite A. reflexivity. }
      rewrite E, parse_loop_cons, parse_arg_plain; auto.
    - rewrite parse_loop_cons. cbn [hd_error].
      assert (E : parse_arg "--backport" (Some o) s = SGo (apply_effect (ECmd (CmdAddBackport o)) 2 s)).
      { simpl accepted in A. apply is_backport_iff in A. unfold Arguments.parse_arg.
        cbn -[is_backport]. unfold add_backport. rewrite A. reflexivity. }
      rewrite E, parse_loop_cons, parse_arg_plain; auto.
    - rewrite parse_loop_cons. cbn [hd_error].
      assert (E : parse_arg "--feature" (Some o) s = SGo (apply_effect (ECmd (CmdEnableFeature o)) 2 s)).
      { simpl accepted in A. apply is_feature_iff in A. unfold Arguments.parse_arg.
        cbn -[is_feature]. unfold enable_feature. rewrite A. reflexivity. }
      rewrite E, parse_loop_cons, parse_arg_plain; auto.
    - rewrite parse_loop_cons. cbn [hd_error].
      assert (E : parse_arg w (Some o) s = SGo (apply_effect (EConfig o) 2 s)).
      { simpl in H. destruct H as [<-|[<-|[]]]; reflexivity. }
      rewrite E, parse_loop_cons, parse_arg_plain; auto.
  Qed.

  (** A call that is not valid stops the parsing. *)
  Lemma option_refused : forall w m s rest, option_means w (ECmd m) -> ~ accepted re_ok (p_config s) m ->
    (List.length (c_targets (p_config s)) <= 2)%nat ->
    parse_loop (w ++ rest) s = SFail \/ exists e, parse_loop (w ++ rest) s = SRaise e.
  Proof.
    intros w m s rest M A L. inversion M; subst; cbn [app accepted] in *; try tauto.
    - match goal with K : In _ flag_options |- _ => rename K into H0 end.
      unfold flag_options in H0. cbn [In] in H0.
      repeat (destruct H0 as [H|H0]; [injection H as <- <-; exfalso; apply A; exact I|]). destruct H0.
    - left. rewrite parse_loop_cons, target_arg_step; auto.
      destruct (add_target_answer re_ok (TStr x) (p_config s) L) as [[R _] _].
      destruct (add_target (TStr x) (p_config s)) as [c' r]. cbn [snd] in R.
      destruct r; auto. exfalso. apply A. apply R. auto.
    - left. rewrite parse_loop_cons, processes_arg_step; auto.
      match goal with K : py_int x = _ |- _ => rewrite K end.
      destruct (Z.leb_spec n 0); [reflexivity|lia].
    - right. exists ReError. rewrite parse_loop_cons. cbn [hd_error]. unfold Arguments.parse_arg. cbn.
      unfold add_exclusion_regex. destruct (re_ok o); [tauto|reflexivity].
    - left. rewrite parse_loop_cons. cbn [hd_error]. unfold Arguments.parse_arg. cbn -[is_backport].
      unfold add_backport. destruct (is_backport o) eqn:B; [|reflexivity].
      apply is_backport_iff in B. contradiction.
    - left. rewrite parse_loop_cons. cbn [hd_error]. unfold Arguments.parse_arg. cbn -[is_feature].
      unfold enable_feature. destruct (is_feature o) eqn:B; [|reflexivity].
      apply is_feature_iff in B. contradiction.
  Qed.

  (** ** A whole command line *)
  Definition item_step (i : item) (s : pstate) : pstate :=
    match i with IOpt w e => apply_effect e (List.length w) s | _ => s end.
  Definition items_state (l : list item) (s : pstate) : pstate := fold_left (fun s i => item_step i s) l s.

  Lemma item_step_config : forall i s,
    p_config (item_step i s) = run_cmds cpus re_ok (item_cmds i) (p_config s).
  Proof. intros [w e| |p] s; auto. destruct e; reflexivity. Qed.

  Lemma items_config : forall l s, p_config (items_state l s) = run_cmds cpus re_ok (cmds l) (p_config s).
  Proof.
    induction l as [|i l IH]; intros s; auto.
    change (items_state (i :: l) s) with (items_state l (item_step i s)).
    change (cmds (i :: l)) with (item_cmds i ++ cmds l). rewrite run_app, IH, item_step_config. auto.
  Qed.
  Lemma items_pos : forall l s, p_pos (items_state l s) = (p_pos s + option_words l)%nat.
  Proof.
    induction l as [|i l IH]; intros s.
    - cbn. lia.
    - change (items_state (i :: l) s) with (items_state l (item_step i s)). rewrite IH.
      unfold option_words. cbn [map]. change (list_sum (?a :: ?b)) with (a + list_sum b)%nat.
      destruct i as [w e| |p]; cbn [item_step list_sum fold_right]; try lia.
      destruct e; cbn [apply_effect p_pos]; unfold list_sum; lia.
  Qed.
  Lemma items_versions : forall l s, p_versions (items_state l s) = true <-> p_versions s = true \/ wants_versions l.
  Proof.
    induction l as [|i l IH]; intros s.
    - cbn. split; auto. intros [H|[w []]]; auto.
    - change (items_state (i :: l) s) with (items_state l (item_step i s)). rewrite IH. unfold wants_versions. split.
      + intros [H|[w H]].
        * destruct i as [w e| |p]; auto. destruct e; auto. right. exists w. left. auto.
        * right. exists w. right. auto.
      + intros [H|[w [->|H]]].
        * left. destruct i as [w e| |p]; auto. destruct e; auto.
        * left. reflexivity.
        * right. exists w. auto.
  Qed.
  Lemma items_fmt : forall l s, p_fmt s = None -> last_format l (p_fmt (items_state l s)).
  Proof.
    intros l s N. induction l as [|i l IH] using rev_ind.
    - cbn. rewrite N. intros w f [].
    - unfold items_state. rewrite fold_left_app. cbn [fold_left].
      change (fold_left (fun s0 i0 => item_step i0 s0) l s) with (items_state l s).
      set (st := items_state l s) in *.
      assert (KEEP : (forall w f, i <> IOpt w (EFormat f)) -> p_fmt (item_step i st) = p_fmt st ->
                     last_format (l ++ [i]) (p_fmt (item_step i st))).
      { intros D E. rewrite E. destruct (p_fmt st) as [f|]; cbn [last_format] in *.
        - destruct IH as [a [w [b [-> B]]]]. exists a, w, (b ++ [i]). split; [rewrite <- app_assoc; auto|].
          intros w' f' I. apply in_app_or in I. destruct I as [I|[I|[]]]; [eapply B; eauto | eapply D; eauto].
        - intros w' f' I. apply in_app_or in I. destruct I as [I|[I|[]]]; [eapply IH; eauto | eapply D; eauto]. }
      destruct i as [w e| |p]; try (apply KEEP; [discriminate|reflexivity]).
      destruct e as [m|f| |f]; try (apply KEEP; [discriminate|reflexivity]).
      cbn. exists l, w, []. split; [reflexivity|]. intros ? ? [].
  Qed.

  Lemma loop_items : forall l s rest, Forall (item_ok excl_file) l ->
    all_accepted cpus re_ok (p_config s) (cmds l) ->
    parse_loop (command_line l ++ rest) s = parse_loop rest (items_state l s).
  Proof.
    induction l as [|i l IH]; intros s rest F A; auto. inversion F; subst.
    change (command_line (i :: l)) with (item_words i ++ command_line l). rewrite <- app_assoc.
    change (items_state (i :: l) s) with (items_state l (item_step i s)).
    change (cmds (i :: l)) with (item_cmds i ++ cmds l) in A.
    destruct i as [w e| |p]; cbn [item_words item_ok item_cmds] in *.
    - rewrite (option_step w e); auto.
      + apply IH; auto. destruct e; cbn [app] in A; auto. inversion A; subst. auto.
      + destruct e; cbn [app] in A; cbn [accepted_effect]; auto. inversion A; auto.
    - cbn [app]. rewrite parse_loop_cons, parse_arg_no_config. apply IH; auto.
    - cbn [app]. rewrite parse_loop_cons, parse_arg_plain; auto.
  Qed.

  Lemma loop_refused : forall l w m s rest, Forall (item_ok excl_file) l ->
    all_accepted cpus re_ok (p_config s) (cmds l) -> option_means w (ECmd m) ->
    (List.length (c_targets (run_cmds cpus re_ok (cmds l) (p_config s))) <= 2)%nat ->
    ~ accepted re_ok (run_cmds cpus re_ok (cmds l) (p_config s)) m ->
    parse_loop (command_line l ++ w ++ rest) s = SFail \/
    exists e, parse_loop (command_line l ++ w ++ rest) s = SRaise e.
  Proof.
    intros l w m s rest F A M L N. rewrite loop_items by auto.
    rewrite <- items_config in L, N. apply (option_refused w m); auto.
  Qed.

  Lemma missing_operand_arg : forall w s, In w needs_operand -> ~ In w ["--config-file"; "-c"] ->
    parse_arg w None s = SFail.
  Proof.
    intros w s I N. unfold needs_operand in I. cbn [In] in I.
    repeat (destruct I as [<-|I]; [reflexivity || (exfalso; apply N; simpl; tauto)|]). destruct I.
  Qed.

  (** ** The config file arguments *)
  Variable cwd : string.
  Notation preparse := (preparse cwd).

  Lemma preparse_plain : forall p r n ac, plain_arg p -> preparse (p :: r) n ac = preparse r n ac.
  Proof.
    intros p r n ac H. cbn [Arguments.preparse]. plain_solve H. reflexivity.
  Qed.

  Lemma preparse_option : forall w e r n ac, option_means w e ->
    preparse (w ++ r) n ac = preparse r n (match e with EConfig f => Some (abspath cwd f) | _ => ac end).
  Proof.
    intros w e r n ac M. destruct M; cbn [app].
    - unfold flag_options in H. cbn [In] in H.
      repeat (destruct H as [H|H]; [injection H as <- <-; reflexivity|]). destruct H.
    - destruct n0 as [|k]; [lia|]. destruct k; reflexivity.
    - simpl in H. destruct H as [<-|[<-|[]]]; reflexivity.
    - simpl in H. destruct H as [<-|[<-|[]]]; reflexivity.
    - reflexivity.
    - assert (E : preparse (w :: o :: r) n ac = preparse (o :: r) n ac) by (simpl in H; destruct H as [<-|[<-|[]]]; reflexivity).
      rewrite E. apply preparse_plain; auto.
    - assert (E : preparse ("--exclude" :: o :: r) n ac = preparse (o :: r) n ac) by reflexivity.
      rewrite E. apply preparse_plain; auto.
    - assert (E : preparse ("--exclude-file" :: o :: r) n ac = preparse (o :: r) n ac) by reflexivity.
      rewrite E. apply preparse_plain; auto.
    - assert (E : preparse ("--exclude-regex" :: o :: r) n ac = preparse (o :: r) n ac) by reflexivity.
      rewrite E. apply preparse_plain; auto.
    - assert (E : preparse ("--backport" :: o :: r) n ac = preparse (o :: r) n ac) by reflexivity.
      rewrite E. apply preparse_plain; auto.
    - assert (E : preparse ("--feature" :: o :: r) n ac = preparse (o :: r) n ac) by reflexivity.
      rewrite E. apply preparse_plain; auto.
    - assert (E : preparse (w :: o :: r) n ac = preparse (o :: r) n (Some (abspath cwd o)))
        by (simpl in H; destruct H as [<-|[<-|[]]]; reflexivity).
      rewrite E. apply preparse_plain; auto.
  Qed.

  (** What the first loop finds. *)
  Definition pre_item (x : bool * option string) (i : item) : bool * option string :=
    match i with
    | INoConfig => (true, snd x)
    | IOpt _ (EConfig f) => (fst x, Some f)
    | _ => x
    end.

  Lemma preparse_items : forall l n o, Forall (item_ok excl_file) l ->
    preparse (command_line l) n (option_map (abspath cwd) o) =
    PreGo (fst (fold_left pre_item l (n, o))) (option_map (abspath cwd) (snd (fold_left pre_item l (n, o)))).
  Proof.
    induction l as [|i l IH]; intros n o F; auto. inversion F; subst.
    change (command_line (i :: l)) with (item_words i ++ command_line l).
    destruct i as [w e| |p]; cbn [item_words item_ok fold_left] in *.
    - rewrite (preparse_option w e) by auto. destruct e as [m|f| |f]; cbn [pre_item]; try apply IH; auto.
      apply (IH n (Some f)); auto.
    - apply (IH true o); auto.
    - cbn [app]. rewrite preparse_plain by auto. apply IH; auto.
  Qed.

  Lemma pre_no_config : forall l n o, fst (fold_left pre_item l (n, o)) = true <-> n = true \/ wants_no_config l.
  Proof.
    induction l as [|i l IH]; intros n o; cbn [fold_left].
    - cbn. unfold wants_no_config. simpl. tauto.
    - destruct i as [w e| |p]; cbn [pre_item fst snd].
      + destruct e; cbn [fst snd]; rewrite IH; unfold wants_no_config; simpl; intuition discriminate.
      + rewrite IH. unfold wants_no_config; simpl. intuition.
      + rewrite IH. unfold wants_no_config; simpl. intuition discriminate.
  Qed.
  Lemma pre_config : forall l n, last_config l (snd (fold_left pre_item l (n, None))).
  Proof.
    intros l n. induction l as [|i l IH] using rev_ind.
    - intros w f [].
    - rewrite fold_left_app. cbn [fold_left]. set (x := fold_left pre_item l (n, None)) in *.
      assert (KEEP : (forall w f, i <> IOpt w (EConfig f)) -> snd (pre_item x i) = snd x ->
                     last_config (l ++ [i]) (snd (pre_item x i))).
      { intros D E. rewrite E. destruct (snd x) as [f|]; cbn [last_config] in *.
        - destruct IH as [a [w [b [-> B]]]]. exists a, w, (b ++ [i]). split; [rewrite <- app_assoc; auto|].
          intros w' f' I. apply in_app_or in I. destruct I as [I|[I|[]]]; [eapply B; eauto | eapply D; eauto].
        - intros w' f' I. apply in_app_or in I. destruct I as [I|[I|[]]]; [eapply IH; eauto | eapply D; eauto]. }
      destruct i as [w e| |p]; try (apply KEEP; [discriminate|reflexivity]).
      destruct e as [m|f| |f]; try (apply KEEP; [discriminate|reflexivity]).
      cbn. exists l, w, []. split; [reflexivity|]. intros ? ? [].
  Qed.

  Lemma last_config_unique : forall l o o', last_config l o -> last_config l o' -> o = o'.
  Proof.
    assert (W : forall l f, last_config l None -> last_config l (Some f) -> False).
    { intros l f H [a [w [b [-> _]]]]. eapply H. apply in_or_app. right. left. reflexivity. }
    intros l [f|] [f'|] H H'; auto; try (exfalso; solve [eauto]).
    f_equal. destruct H as [a [w [b [E B]]]]. destruct H' as [a' [w' [b' [E' B']]]].
    rewrite E in E'. clear E. revert a' E'. induction a as [|x a IH]; intros [|y a'] E'.
    - simpl in E'; congruence.
    - injection E' as _ E'. exfalso. eapply B. rewrite E'. apply in_or_app. right. left. reflexivity.
    - injection E' as _ E'. exfalso. eapply B'. rewrite <- E'. apply in_or_app. right. left. reflexivity.
    - injection E' as _ E'. eauto.
  Qed.

  (** ** parse *)
  Variable cfg : string -> cfg_file.
  Notation parse := (parse cpus re_ok excl_file cwd cfg).

  Lemma w_verbose_id : forall c, w_verbose (c_verbose c) c = c.
  Proof. destruct c; reflexivity. Qed.

  Lemma finish_spec : forall args note s,
    let c := with_format (p_fmt s) (p_config s) in
    (refused c -> exists c', finish args note s = (c', OCode 1)) /\
    (~ refused c -> exists printed,
       finish args note s = (used c, OPaths (skipn (p_pos s) args)
                                (match c_format c with FParsable => false | FDefault => p_versions s end) printed)).
  Proof.
    intros args note s c.
    assert (E : match p_fmt s with Some f => set_format f (p_config s) | None => p_config s end = c) by reflexivity.
    unfold finish. rewrite E. unfold refused, used.
    destruct (c_only_show_violations c) eqn:V; cbn [andb negb].
    - destruct (c_targets c) as [|t ts] eqn:T.
      + simpl. split; [eauto|]. intros N. exfalso. apply N. auto.
      + cbn [List.length Nat.eqb]. split; [intros [[_ H]|[H _]]; discriminate|]. intros _.
        destruct (Z.ltb_spec (c_verbose c) 2).
        * rewrite Z.max_l by lia. cbn [c_only_show_violations c_quiet c_verbose w_verbose c_format]. rewrite V.
          rewrite andb_false_r. destruct (c_format c); eexists; reflexivity.
        * rewrite Z.max_r by lia. rewrite w_verbose_id, V. rewrite andb_false_r.
          destruct (c_format c); eexists; reflexivity.
    - rewrite V. cbn [negb]. rewrite andb_true_r.
      destruct (c_quiet c) eqn:Q; cbn [andb].
      + destruct (Z.ltb_spec 0 (c_verbose c)).
        * split; [eauto|]. intros N. exfalso. apply N. auto.
        * split; [intros [[H1 _]|[_ [_ H1]]]; [discriminate|lia]|]. intros _.
          destruct (c_format c); eexists; reflexivity.
      + split; [intros [[H1 _]|[_ [H1 _]]]; discriminate|]. intros _.
        destruct (c_format c); eexists; reflexivity.
  Qed.

  (** The configuration the loop starts from. *)
  Lemma parse_base : forall det l c c0, l <> [] -> Forall (item_ok excl_file) l -> command_line l <> [] ->
    base cpus re_ok cfg cwd det c l c0 ->
    exists note, parse (Ok det) (command_line l) c =
      match parse_loop (command_line l) (mkP c0 0 false None) with
      | SGo s => Ok (finish (command_line l) note s)
      | SFail => Ok (c0, OCode 1)
      | SRaise e => Err e
      end.
  Proof.
    intros det l c c0 N F NE B.
    assert (P := preparse_items l false None F). cbn [option_map] in P.
    assert (C := pre_config l false).
    assert (NC := pre_no_config l false None).
    destruct (fold_left pre_item l (false, None)) as [nc ac]. cbn [fst snd] in *.
    unfold Arguments.parse. destruct (command_line l) as [|a r] eqn:E; [congruence|]. rewrite <- E in *. clear a r E.
    rewrite P. destruct B as [f c' LC NW PF|LC W|f c' LC NW DD PF|LC NW DD].
    - assert (ac = Some f) by (eapply last_config_unique; eauto). subst ac. cbn [option_map].
      destruct nc; [exfalso; apply NW; destruct NC as [NC _]; destruct NC as [NC|NC]; auto; discriminate|].
      rewrite PF. eexists. reflexivity.
    - assert (ac = None) by (eapply last_config_unique; eauto). subst ac. cbn [option_map].
      assert (nc = true) by (apply NC; auto). subst nc. eexists. reflexivity.
    - assert (ac = None) by (eapply last_config_unique; eauto). subst ac. cbn [option_map].
      destruct nc; [exfalso; apply NW; destruct NC as [NC _]; destruct NC as [NC|NC]; auto; discriminate|].
      subst det. rewrite PF. eexists. reflexivity.
    - assert (ac = None) by (eapply last_config_unique; eauto). subst ac. cbn [option_map].
      destruct nc; [exfalso; apply NW; destruct NC as [NC _]; destruct NC as [NC|NC]; auto; discriminate|].
      subst det. eexists. reflexivity.
  Qed.

  Lemma command_line_nonempty : forall l, Forall (item_ok excl_file) l -> l <> [] -> command_line l <> [].
  Proof.
    intros [|i l] F N; [congruence|]. change (command_line (i :: l)) with (item_words i ++ command_line l).
    inversion F; subst. destruct i as [w e| |p]; cbn [item_words item_ok] in *; try discriminate.
    destruct H1; discriminate.
  Qed.

  (** The whole of parse for a command line of options and paths in any order. *)
  Lemma parse_items : forall det l c c0 o, l <> [] -> Forall (item_ok excl_file) l ->
    base cpus re_ok cfg cwd det c l c0 -> all_accepted cpus re_ok c0 (cmds l) -> last_format l o ->
    let c2 := with_format o (run_cmds cpus re_ok (cmds l) c0) in
    (refused c2 -> exists c', parse (Ok det) (command_line l) c = Ok (c', OCode 1)) /\
    (~ refused c2 -> exists v printed,
       parse (Ok det) (command_line l) c =
         Ok (used c2, OPaths (skipn (option_words l) (command_line l)) v printed) /\
       (v = true <-> wants_versions l /\ c_format c2 = FDefault)).
  Proof.
    intros det l c c0 o N F B A LF c2.
    destruct (parse_base det l c c0 N F (command_line_nonempty l F N) B) as [note E].
    assert (L := loop_items l (mkP c0 0 false None) [] F A). rewrite app_nil_r in L. cbn [Arguments.parse_loop] in L.
    rewrite L in E.
    set (s := items_state l (mkP c0 0 false None)) in *.
    assert (EC : p_config s = run_cmds cpus re_ok (cmds l) c0) by (apply items_config).
    assert (EP : p_pos s = option_words l) by (apply (items_pos l (mkP c0 0 false None))).
    assert (EV := items_versions l (mkP c0 0 false None)). fold s in EV. cbn [p_versions] in EV.
    assert (EF : p_fmt s = o).
    { assert (H := items_fmt l (mkP c0 0 false None) eq_refl). fold s in H.
      destruct (p_fmt s) as [f|], o as [f'|]; auto.
      - f_equal. destruct H as [a [w [b [H1 H2]]]]. destruct LF as [a' [w' [b' [H3 H4]]]].
        rewrite H1 in H3. clear - H2 H3 H4. revert a' H3. induction a as [|x a IH]; intros [|y a'] E'.
        + simpl in E'; congruence.
        + injection E' as _ E'. exfalso. eapply H2. rewrite E'. apply in_or_app. right. left. reflexivity.
        + injection E' as _ E'. exfalso. eapply H4. rewrite <- E'. apply in_or_app. right. left. reflexivity.
        + injection E' as _ E'. eauto.
      - exfalso. destruct H as [a [w [b [H1 H2]]]]. eapply LF. rewrite H1. apply in_or_app. right. left. reflexivity.
      - exfalso. destruct LF as [a [w [b [H1 H2]]]]. eapply H. rewrite H1. apply in_or_app. right. left. reflexivity. }
    destruct (finish_spec (command_line l) note s) as [F1 F2]. cbv zeta in F1, F2.
    rewrite EF, EC in F1, F2. fold c2 in F1, F2. split.
    - intros R. destruct (F1 R) as [c' K]. exists c'. rewrite E, K. auto.
    - intros R. destruct (F2 R) as [pr K]. eexists _, pr. rewrite E, K, EP. split; [reflexivity|].
      destruct (c_format c2).
      + rewrite EV. split; [intros [H|H]; [discriminate|auto]|]. intros [H _]. auto.
      + split; [discriminate|]. intros [_ H]. discriminate.
  Qed.

  (** Conflicting or broken config arguments. *)
  Lemma parse_conflict : forall det l c f, l <> [] -> Forall (item_ok excl_file) l ->
    last_config l (Some f) -> wants_no_config l -> parse (Ok det) (command_line l) c = Ok (c, OCode 1).
  Proof.
    intros det l c f N F LC W.
    assert (NE := command_line_nonempty l F N).
    assert (P := preparse_items l false None F). cbn [option_map] in P.
    assert (C := pre_config l false).
    assert (NC := pre_no_config l false None).
    destruct (fold_left pre_item l (false, None)) as [nc ac]. cbn [fst snd] in *.
    assert (ac = Some f) by (eapply last_config_unique; eauto). subst ac.
    assert (nc = true) by (apply NC; auto). subst nc.
    unfold Arguments.parse. destruct (command_line l) as [|a r] eqn:E; [congruence|]. rewrite <- E in *. clear a r E.
    rewrite P. reflexivity.
  Qed.
  Lemma parse_broken_file : forall det l c, l <> [] -> Forall (item_ok excl_file) l -> ~ wants_no_config l ->
    (exists f, last_config l (Some f) /\ parse_file cpus re_ok (cfg (abspath cwd f)) = None) \/
    (exists f, last_config l None /\ det = Some f /\ parse_file cpus re_ok (cfg f) = None) ->
    parse (Ok det) (command_line l) c = Ok (c, OCode 1).
  Proof.
    intros det l c N F NW H.
    assert (NE := command_line_nonempty l F N).
    assert (P := preparse_items l false None F). cbn [option_map] in P.
    assert (C := pre_config l false).
    assert (NC := pre_no_config l false None).
    destruct (fold_left pre_item l (false, None)) as [nc ac]. cbn [fst snd] in *.
    destruct nc; [exfalso; apply NW; destruct NC as [NC _]; destruct NC as [NC|NC]; auto; discriminate|].
    unfold Arguments.parse. destruct (command_line l) as [|a r] eqn:E; [congruence|]. rewrite <- E in *. clear a r E.
    rewrite P. destruct H as [[f [LC PF]]|[f [LC [DD PF]]]].
    - assert (ac = Some f) by (eapply last_config_unique; eauto). subst ac. cbn [option_map]. rewrite PF. reflexivity.
    - assert (ac = None) by (eapply last_config_unique; eauto). subst ac. cbn [option_map]. subst det. rewrite PF. reflexivity.
  Qed.

  (** ** Properties of every command line *)
  Lemma refused_dec : forall c, {refused c} + {~ refused c}.
  Proof.
    intros c. unfold refused. destruct (c_only_show_violations c).
    - destruct (c_targets c); [left; auto|]. right. intros [[_ H]|[H _]]; discriminate.
    - destruct (c_quiet c); [|right; intros [[H _]|[_ [H _]]]; discriminate].
      destruct (Z_lt_dec 0 (c_verbose c)); [left; auto|]. right. intros [[H _]|[_ [_ H]]]; [discriminate|lia].
  Qed.

  Lemma parse_paths_inv : forall det args c c' ps v pr, parse det args c = Ok (c', OPaths ps v pr) ->
    exists c0 s, parse_loop args (mkP c0 0 false None) = SGo s /\
      ~ refused (with_format (p_fmt s) (p_config s)) /\ c' = used (with_format (p_fmt s) (p_config s)) /\
      ps = skipn (p_pos s) args /\
      (v = true -> p_versions s = true /\ c_format (with_format (p_fmt s) (p_config s)) = FDefault) /\
      (c0 = c \/ exists c1, c0 = override_from c1 c).
  Proof.
    intros det args c c' ps v pr H. unfold Arguments.parse in H.
    destruct args as [|a r]; [discriminate|]. set (args := a :: r) in *.
    destruct det as [det|e]; [|discriminate].
    destruct (Arguments.preparse cwd args false None) as [| | |nc ac]; try discriminate.
    assert (K : forall c0 note, match parse_loop args (mkP c0 0 false None) with
                 | SGo s => Ok (finish args note s) | SFail => Ok (c0, OCode 1) | SRaise e => Err e end
                 = Ok (c', OPaths ps v pr) -> (c0 = c \/ exists c1, c0 = override_from c1 c) ->
      exists c0 s, parse_loop args (mkP c0 0 false None) = SGo s /\
      ~ refused (with_format (p_fmt s) (p_config s)) /\ c' = used (with_format (p_fmt s) (p_config s)) /\
      ps = skipn (p_pos s) args /\
      (v = true -> p_versions s = true /\ c_format (with_format (p_fmt s) (p_config s)) = FDefault) /\
      (c0 = c \/ exists c1, c0 = override_from c1 c)).
    { intros c0 note E B. exists c0. destruct (parse_loop args (mkP c0 0 false None)) as [s| |e]; try discriminate.
      exists s. split; auto. destruct (finish_spec args note s) as [F1 F2]. cbv zeta in F1, F2.
      destruct (refused_dec (with_format (p_fmt s) (p_config s))) as [R|R].
      - destruct (F1 R) as [c1 X]. rewrite X in E. discriminate.
      - destruct (F2 R) as [pr' X]. rewrite X in E. injection E as <- <- <- _.
        repeat split; auto.
        + destruct (c_format _); [auto|discriminate].
        + destruct (c_format _); [auto|discriminate]. }
    destruct nc, ac as [f|]; try discriminate.
    - eapply K; eauto.
    - destruct (parse_file cpus re_ok (cfg f)) as [c1|]; [|discriminate]. eapply K; eauto.
    - destruct det as [f|].
      + destruct (parse_file cpus re_ok (cfg f)) as [c1|]; [|discriminate]. eapply K; eauto.
      + eapply K; eauto.
  Qed.

  Lemma used_fields : forall c, c_only_show_violations (used c) = c_only_show_violations c /\
    c_targets (used c) = c_targets c /\ c_quiet (used c) = c_quiet c /\ c_format (used c) = c_format c /\
    c_ignore_incomp (used c) = c_ignore_incomp c /\ c_show_tips (used c) = c_show_tips c /\
    c_verbose c <= c_verbose (used c).
  Proof.
    intros c. unfold used. destruct (c_only_show_violations c) eqn:V; cbn; repeat split; auto; lia.
  Qed.

  Lemma checks_hold : forall det args c c' ps v pr, parse det args c = Ok (c', OPaths ps v pr) ->
    (c_only_show_violations c' = true -> c_targets c' <> [] /\ 2 <= c_verbose c') /\
    (c_quiet c' = true -> 0 < c_verbose c' -> c_only_show_violations c' = true) /\
    (c_format c' = FParsable -> v = false).
  Proof.
    intros det args c c' ps v pr H. apply parse_paths_inv in H.
    destruct H as [c0 [s [_ [R [-> [_ [V _]]]]]]]. set (d := with_format (p_fmt s) (p_config s)) in *.
    destruct (used_fields d) as [U1 [U2 [U3 [U4 _]]]]. rewrite U1, U2, U3, U4. repeat split.
    - intros T. apply R. left. auto.
    - unfold used. rewrite H. cbn. lia.
    - intros Q P. destruct (c_only_show_violations d) eqn:E; auto. exfalso. apply R. right.
      repeat split; auto. unfold used in P. rewrite E in P. auto.
    - intros F. destruct v; auto. destruct (V eq_refl) as [_ K]. congruence.
  Qed.

  Lemma parse_arg_fmt : forall a next s s', parse_arg a next s = SGo s' ->
    (p_fmt s' = p_fmt s \/ p_fmt s' <> None) /\ (In a ["--format"; "-f"] -> p_fmt s' <> None).
  Proof.
    intros a next s s' H. split.
    - unfold Arguments.parse_arg in H.
      repeat match type of H with
      | (if ?b then _ else _) = _ => destruct b
      | match flag_effect a with _ => _ end = _ => destruct (flag_effect a)
      | match ?n with _ => _ end = _ => destruct n; try discriminate
      | (let (_, _) := ?n in _) = _ => destruct n; try discriminate
      end; try (injection H as <-; cbn; auto; fail); try discriminate.
      all: injection H as <-; cbn; auto; right; discriminate.
    - intros I. assert (E : match next with
                            | None => SFail
                            | Some n => match from_name (lower n) with
                                        | None => SFail
                                        | Some f => SGo (mkP (p_config s) (p_pos s + 2)%nat (p_versions s) (Some f))
                                        end
                            end = SGo s').
      { rewrite <- H. simpl in I. destruct I as [<-|[<-|[]]]; reflexivity. }
      destruct next as [n|]; [|discriminate]. destruct (from_name (lower n)); [|discriminate].
      injection E as <-. cbn. discriminate.
  Qed.

  Lemma parse_loop_fmt : forall args s s', parse_loop args s = SGo s' ->
    p_fmt s <> None \/ In "--format" args \/ In "-f" args -> p_fmt s' <> None.
  Proof.
    induction args as [|a r IH]; intros s s' H K.
    - cbn in H. injection H as <-. destruct K as [K|[[]|[]]]. auto.
    - rewrite parse_loop_cons in H. destruct (parse_arg a (hd_error r) s) as [s1| |] eqn:E; try discriminate.
      apply parse_arg_fmt in E. destruct E as [E1 E2]. apply (IH s1); auto.
      destruct K as [K|[[K|K]|[K|K]]]; auto.
      + left. destruct E1 as [E1|E1]; congruence.
      + left. apply E2. rewrite K. left. reflexivity.
      + left. apply E2. rewrite K. right. left. reflexivity.
  Qed.

  Lemma format_argument_settings : forall det args c c' ps v pr,
    parse det args c = Ok (c', OPaths ps v pr) -> In "--format" args \/ In "-f" args -> parsable_settings c'.
  Proof.
    intros det args c c' ps v pr H I. apply parse_paths_inv in H.
    destruct H as [c0 [s [L [_ [-> _]]]]].
    assert (N : p_fmt s <> None) by (eapply parse_loop_fmt; eauto).
    destruct (p_fmt s) as [f|]; [|congruence]. cbn [with_format].
    assert (S := set_format_settings f (p_config s)). unfold parsable_settings in *.
    destruct (used_fields (set_format f (p_config s))) as [U1 [U2 [U3 [U4 [U5 [U6 U7]]]]]].
    rewrite U4, U5, U6. intros F. destruct (S F) as [S1 [S2 S3]]. repeat split; auto; lia.
  Qed.

  Lemma kept_settings : forall det l c c0 o c' ps v pr, l <> [] -> Forall (item_ok excl_file) l ->
    base cpus re_ok cfg cwd det c l c0 -> all_accepted cpus re_ok c0 (cmds l) -> last_format l o ->
    parsable_settings c0 -> Forall keeps_settings (cmds l) ->
    parse (Ok det) (command_line l) c = Ok (c', OPaths ps v pr) -> parsable_settings c'.
  Proof.
    intros det l c c0 o c' ps v pr N F B A LF P K H.
    destruct (parse_items det l c c0 o N F B A LF) as [P1 P2].
    set (c2 := with_format o (run_cmds cpus re_ok (cmds l) c0)) in *.
    assert (S : parsable_settings c2).
    { assert (Q : forall ms c1, parsable_settings c1 -> Forall keeps_settings ms ->
                    parsable_settings (run_cmds cpus re_ok ms c1)).
      { induction ms as [|m ms IH]; intros c1 S1 K1; auto. inversion K1; subst.
        cbn. apply IH; auto. apply settings_step; auto. }
      subst c2. destruct o as [f|]; cbn [with_format]; auto. apply set_format_settings. }
    destruct (refused_dec c2) as [R|R].
    - destruct (P1 R) as [c1 E]. rewrite E in H. discriminate.
    - destruct (P2 R) as [v' [pr' [E _]]]. rewrite E in H. injection H as <- _ _ _.
      destruct (used_fields c2) as [U1 [U2 [U3 [U4 [U5 [U6 U7]]]]]]. unfold parsable_settings in *.
      rewrite U4, U5, U6. intros FP. destruct (S FP) as [S1 [S2 S3]]. repeat split; auto; lia.
  Qed.

  (** ** --no-config-file and --help *)
  Lemma preparse_no_config : forall args n ac nc ac',
    preparse args n ac = PreGo nc ac' -> n = true \/ In "--no-config-file" args -> nc = true.
  Proof.
    induction args as [|a r IH]; intros n ac nc ac' H K.
    - cbn in H. injection H as <- <-. destruct K as [K|[]]. auto.
    - cbn [Arguments.preparse] in H.
      destruct (mem a ["--help"; "-h"]); [discriminate|].
      destruct (mem a ["--version"; "-V"]); [discriminate|].
      destruct (String.eqb_spec a "--no-config-file").
      + eapply IH; eauto.
      + assert (K' : n = true \/ In "--no-config-file" r) by (destruct K as [K|[K|K]]; auto; congruence).
        destruct (mem a ["--config-file"; "-c"]).
        * destruct r; [discriminate|]. eapply IH; eauto.
        * eapply IH; eauto.
  Qed.

  Lemma preparse_help : forall a h b n ac, In h ["--help"; "-h"] ->
    (forall x, In x a -> ~ In x ["--version"; "-V"]) -> preparse (a ++ h :: b) n ac = PreHelp.
  Proof.
    induction a as [|x a IH]; intros h b n ac I V.
    - cbn [app Arguments.preparse]. assert (M : mem h ["--help"; "-h"] = true) by (apply mem_In; auto). rewrite M. auto.
    - cbn [app Arguments.preparse]. destruct (mem x ["--help"; "-h"]); auto.
      assert (M : mem x ["--version"; "-V"] = false) by (apply mem_false; apply V; left; auto). rewrite M.
      destruct (String.eqb x "--no-config-file"); [apply IH; auto; intros y Hy; apply V; right; auto|].
      assert (V' : forall y, In y a -> ~ In y ["--version"; "-V"]) by (intros y Hy; apply V; right; auto).
      destruct (mem x ["--config-file"; "-c"]); [|apply IH; auto].
      destruct (a ++ h :: b) eqn:E; [destruct a; discriminate|]. rewrite <- E. apply IH; auto.
  Qed.
End Args.

Lemma no_config_independent : forall cpus re_ok ef cwd cfg cfg' d d' args c, In "--no-config-file" args ->
  parse cpus re_ok ef cwd cfg (Ok d) args c = parse cpus re_ok ef cwd cfg' (Ok d') args c.
Proof.
  intros cpus re_ok ef cwd cfg cfg' d d' args c I. unfold parse. destruct args as [|a r]; auto.
  set (args := a :: r) in *. destruct (preparse cwd args false None) as [| | |nc ac] eqn:P; auto.
  assert (nc = true) by (eapply preparse_no_config; eauto). subst nc. destruct ac; reflexivity.
Qed.

Lemma help_independent : forall cpus re_ok ef cwd cfg d a h b c, In h ["--help"; "-h"] ->
  (forall x, In x a -> ~ In x ["--version"; "-V"]) ->
  parse cpus re_ok ef cwd cfg (Ok d) (a ++ h :: b) c = Ok (c, OUsage 0 true).
Proof.
  intros. unfold parse. destruct (a ++ h :: b) eqn:E; [destruct a; discriminate|]. rewrite <- E.
  rewrite preparse_help by auto. reflexivity.
Qed.

(** A detected file does not matter when one is named. *)
Lemma named_file_wins : forall cpus re_ok ef cwd cfg d d' l c f, l <> [] -> Forall (item_ok ef) l ->
  last_config l (Some f) ->
  match parse cpus re_ok ef cwd cfg (Ok d) (command_line l) c, parse cpus re_ok ef cwd cfg (Ok d') (command_line l) c with
  | Ok x, Ok y => x = y
  | Err x, Err y => x = y
  | _, _ => False
  end.
Proof.
  intros cpus re_ok ef cwd cfg d d' l c f N F LC.
  assert (NE := command_line_nonempty ef l F N).
  assert (P := preparse_items ef cwd l false None F). cbn [option_map] in P.
  assert (C := pre_config l false).
  destruct (fold_left pre_item l (false, None)) as [nc ac]. cbn [fst snd] in *.
  assert (ac = Some f) by (eapply last_config_unique; eauto). subst ac. cbn [option_map] in P.
  unfold parse. destruct (command_line l) as [|a r] eqn:E; [congruence|]. rewrite <- E in *. clear a r E.
  rewrite P. destruct nc; auto. destruct (parse_file _ _ _); auto.
  destruct (parse_loop _ _ _ _ _); auto.
Qed.

Lemma options_first : forall opts paths, Forall (fun i => exists w e, i = IOpt w e) opts ->
  skipn (option_words (opts ++ map IPath paths)) (command_line (opts ++ map IPath paths)) = paths.
Proof.
  intros opts paths F.
  assert (C : command_line (map IPath paths) = paths) by (clear; induction paths as [|p ps IH]; cbn; auto; f_equal; exact IH).
  assert (Z0 : option_words (map IPath paths) = 0%nat) by (clear; induction paths as [|p ps IH]; cbn; auto).
  induction F as [|i opts [w [e ->]] F IH].
  - cbn [app]. rewrite Z0, C. auto.
  - change (command_line ((IOpt w e :: opts) ++ map IPath paths)) with (w ++ command_line (opts ++ map IPath paths)).
    change (option_words ((IOpt w e :: opts) ++ map IPath paths)) with
      (List.length w + option_words (opts ++ map IPath paths))%nat.
    rewrite skipn_app. rewrite skipn_all2 by lia. cbn [app].
    replace (List.length w + _ - List.length w)%nat with (option_words (opts ++ map IPath paths)) by lia. exact IH.
Qed.
