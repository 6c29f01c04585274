(** Proofs about Config (C16-C22). *)
From Coq Require Import Permutation Sorted.
From Verif Require Import PyBase PyLemmas Utility RulesData Rules Config Heap
  Spec_Base Spec_Utility Proof_Utility Spec_Config.

(** ** Histories, generically *)
Section History.
  Variable cpus : Z.
  Variable re_ok : string -> bool.
  Notation run := (run_cmds cpus re_ok).

  Lemma run_app : forall l1 l2 c, run (l1 ++ l2) c = run l2 (run l1 c).
  Proof. intros. unfold run_cmds. apply fold_left_app. Qed.

  Lemma history_iff : forall (holds : config -> Prop) (adds forgets : cmd -> Prop),
    (forall m, {forgets m} + {~ forgets m}) ->
    (forall c m, holds (run_cmd cpus re_ok c m) <-> adds m \/ (holds c /\ ~ forgets m)) ->
    forall l c, holds (run l c) <->
      since adds forgets l \/ (Forall (fun m => ~ forgets m) l /\ holds c).
  Proof.
    intros holds adds forgets dec H l. induction l as [|m l IH] using rev_ind; intros c.
    - cbn. split.
      + intros K. right. split; auto.
      + intros [[l1 [m [l2 [E _]]]]|[_ K]]; auto. destruct l1; discriminate.
    - rewrite run_app. unfold run_cmds at 1. cbn [fold_left]. rewrite H, IH. split.
      + intros [K|[[[l1 [x [l2 [-> [A F]]]]]|[F K]] N]].
        * left. exists l, m, []. auto.
        * left. exists l1, x, (l2 ++ [m]). split; [rewrite <- app_assoc; reflexivity|].
          split; auto. apply Forall_app. auto.
        * right. split; auto. apply Forall_app. auto.
      + intros [[l1 [x [l2 [E [A F]]]]]|[F K]].
        * destruct l2 as [|y l2] using rev_ind.
          -- apply app_inj_tail in E. destruct E as [_ ->]. auto.
          -- clear IHl2. rewrite app_comm_cons, app_assoc in E. apply app_inj_tail in E.
             destruct E as [-> ->]. apply Forall_app in F. destruct F as [F1 F2]. inversion F2; subst.
             right. split; auto. left. exists l1, x, l2. auto.
        * apply Forall_app in F. destruct F as [F1 F2]. inversion F2; subst. auto.
  Qed.

  Lemma forgets_exclusions_dec : forall m, {forgets_exclusions m} + {~ forgets_exclusions m}.
  Proof. destruct m; simpl; auto. Qed.
  Lemma forgets_backports_dec : forall m, {forgets_backports m} + {~ forgets_backports m}.
  Proof. destruct m; simpl; auto. Qed.
  Lemma forgets_features_dec : forall m, {forgets_features m} + {~ forgets_features m}.
  Proof. destruct m; simpl; auto. Qed.

  (** C17 *)
  Lemma add_file_In : forall ls c n, In n (c_exclusions_set (fold_left (fun c l => add_exclusion (strip l) c) ls c)) <->
    (exists l, In l ls /\ strip l = n) \/ In n (c_exclusions_set c).
  Proof.
    induction ls as [|x ls IH]; intros c n; simpl.
    - split; auto. intros [[l [[] _]]|H]; auto.
    - rewrite IH. cbn [add_exclusion w_exclusions_set c_exclusions_set]. rewrite set_add_In. split.
      + intros [[l [H1 H2]]|[H|H]]; auto.
        * left. exists l. auto.
        * left. exists x. auto.
      + intros [[l [[<-|H1] H2]]|H]; auto. left. exists l. auto.
  Qed.

  Lemma set_format_excl : forall f c, c_exclusions_set (set_format f c) = c_exclusions_set c.
  Proof. destruct f; reflexivity. Qed.

  Lemma exclusion_step : forall n c m,
    In n (c_exclusions_set (run_cmd cpus re_ok c m)) <->
    adds_exclusion m n \/ (In n (c_exclusions_set c) /\ ~ forgets_exclusions m).
  Proof.
    intros n c m. destruct m; cbn [run_cmd adds_exclusion forgets_exclusions]; try (simpl; tauto).
    - simpl. rewrite set_add_In. intuition.
    - unfold add_exclusion_regex. destruct (re_ok p); simpl; tauto.
    - destruct content as [ls|]; cbn [add_exclusion_file]; [|simpl; tauto].
      rewrite add_file_In. simpl. tauto.
    - unfold add_backport. destruct (is_backport n0); simpl; tauto.
    - unfold enable_feature. destruct (is_feature n0); simpl; tauto.
    - unfold add_target. destruct (_ =? _)%nat; simpl; try tauto.
      destruct t; simpl; try tauto. destruct (parse_target s); simpl; tauto.
    - rewrite set_format_excl. simpl. tauto.
    - unfold override_from. rewrite set_format_excl. cbn [c_exclusions_set].
      rewrite dedup_In. unfold exclusions. rewrite isort_In. simpl. tauto.
  Qed.

  Lemma excluded_history : forall l c n,
    is_excluded (run l c) n = true <->
    since (fun m => adds_exclusion m n) forgets_exclusions l \/
    (Forall (fun m => ~ forgets_exclusions m) l /\ is_excluded c n = true).
  Proof.
    intros l c n. unfold is_excluded. rewrite !mem_In.
    apply (history_iff (fun c => In n (c_exclusions_set c))); auto using forgets_exclusions_dec.
    intros. apply exclusion_step.
  Qed.

  (** C18 *)
  Lemma set_format_bps : forall f c, c_backports (set_format f c) = c_backports c.
  Proof. destruct f; reflexivity. Qed.
  Lemma set_format_feats : forall f c, c_features (set_format f c) = c_features c.
  Proof. destruct f; reflexivity. Qed.
  Lemma set_format_tgts : forall f c, c_targets (set_format f c) = c_targets c.
  Proof. destruct f; reflexivity. Qed.
  Lemma set_format_procs : forall f c, c_processes (set_format f c) = c_processes c.
  Proof. destruct f; reflexivity. Qed.
  Lemma set_format_regex : forall f c, c_exclusion_regex_set (set_format f c) = c_exclusion_regex_set c.
  Proof. destruct f; reflexivity. Qed.

  Lemma add_file_other : forall {A} (g : config -> A) ls c,
    (forall n c, g (add_exclusion n c) = g c) ->
    g (fold_left (fun c l => add_exclusion (strip l) c) ls c) = g c.
  Proof. intros A g ls. induction ls as [|x ls IH]; simpl; intros c H; auto. rewrite IH; auto. Qed.

  Lemma backport_step : forall n c m,
    In n (c_backports (run_cmd cpus re_ok c m)) <->
    adds_backport m n \/ (In n (c_backports c) /\ ~ forgets_backports m).
  Proof.
    intros n c m. destruct m; cbn [run_cmd adds_backport forgets_backports]; try (simpl; tauto).
    - unfold add_exclusion_regex. destruct (re_ok p); simpl; tauto.
    - destruct content as [ls|]; cbn [add_exclusion_file]; [|simpl; tauto].
      rewrite (add_file_other c_backports) by auto. simpl. tauto.
    - unfold add_backport. destruct (is_backport n0) eqn:E.
      + simpl. rewrite set_add_In. unfold is_backport, backport_modules in E. apply mem_In in E.
        split; [intros [->|H]; auto | intros [[-> _]|[H _]]; auto].
      + simpl. unfold is_backport, backport_modules in E. apply mem_false in E.
        split; [tauto|]. intros [[-> H]|[H _]]; auto. exfalso; apply E; exact H.
    - unfold enable_feature. destruct (is_feature n0); simpl; tauto.
    - unfold add_target. destruct (_ =? _)%nat; simpl; try tauto.
      destruct t; simpl; try tauto. destruct (parse_target s); simpl; tauto.
    - rewrite set_format_bps. simpl. tauto.
    - unfold override_from. rewrite set_format_bps. simpl. tauto.
  Qed.
  Lemma feature_step : forall n c m,
    In n (c_features (run_cmd cpus re_ok c m)) <->
    adds_feature m n \/ (In n (c_features c) /\ ~ forgets_features m).
  Proof.
    intros n c m. destruct m; cbn [run_cmd adds_feature forgets_features]; try (simpl; tauto).
    - unfold add_exclusion_regex. destruct (re_ok p); simpl; tauto.
    - destruct content as [ls|]; cbn [add_exclusion_file]; [|simpl; tauto].
      rewrite (add_file_other c_features) by auto. simpl. tauto.
    - unfold add_backport. destruct (is_backport n0); simpl; tauto.
    - unfold enable_feature. destruct (is_feature n0) eqn:E.
      + simpl. rewrite set_add_In. unfold is_feature, feature_names in E. apply mem_In in E.
        split; [intros [->|H]; auto | intros [[-> _]|[H _]]; auto].
      + simpl. unfold is_feature, feature_names in E. apply mem_false in E.
        split; [tauto|]. intros [[-> H]|[H _]]; auto. exfalso; apply E; exact H.
    - unfold add_target. destruct (_ =? _)%nat; simpl; try tauto.
      destruct t; simpl; try tauto. destruct (parse_target s); simpl; tauto.
    - rewrite set_format_feats. simpl. tauto.
    - unfold override_from. rewrite set_format_feats. simpl. tauto.
  Qed.

  Lemma backports_history : forall l c n,
    In n (c_backports (run l c)) <->
    since (fun m => adds_backport m n) forgets_backports l \/
    (Forall (fun m => ~ forgets_backports m) l /\ In n (c_backports c)).
  Proof.
    intros. apply (history_iff (fun c => In n (c_backports c))); auto using forgets_backports_dec.
    intros. apply backport_step.
  Qed.
  Lemma features_history : forall l c n,
    In n (c_features (run l c)) <->
    since (fun m => adds_feature m n) forgets_features l \/
    (Forall (fun m => ~ forgets_features m) l /\ In n (c_features c)).
  Proof.
    intros. apply (history_iff (fun c => In n (c_features c))); auto using forgets_features_dec.
    intros. apply feature_step.
  Qed.

  Lemma known_backports : forall c, reach cpus re_ok c ->
    (forall n, In n (c_backports c) -> In n (map (fun e => fst (fst e)) backports_table)) /\
    (forall n, In n (c_features c) -> In n (map fst features_table)).
  Proof.
    induction 1 as [|c m R [IH1 IH2] O IHO].
    - split; intros n []. 
    - split; intros n H.
      + apply backport_step in H. destruct H as [H|[H _]]; auto.
        destruct m; simpl in H; try tauto; [destruct H as [<- H]; auto | apply (IHO other eq_refl); auto].
      + apply feature_step in H. destruct H as [H|[H _]]; auto.
        destruct m; simpl in H; try tauto; [destruct H as [<- H]; auto | apply (IHO other eq_refl); auto].
  Qed.

  Lemma processes_positive : 0 < cpus -> forall c, reach cpus re_ok c -> 0 < c_processes c.
  Proof.
    intros P. induction 1 as [|c m R IH O IHO].
    - exact P.
    - destruct m; cbn [run_cmd]; auto.
      + unfold set_processes. simpl. destruct (Z.ltb_spec 0 p); auto.
      + unfold add_exclusion_regex. destruct (re_ok p); auto.
      + destruct content as [ls|]; cbn [add_exclusion_file]; auto.
        rewrite (add_file_other c_processes); auto.
      + unfold add_backport. destruct (is_backport n); auto.
      + unfold enable_feature. destruct (is_feature n); auto.
      + unfold add_target. destruct (_ =? _)%nat; auto.
        destruct t; auto. destruct (parse_target s); auto.
      + rewrite set_format_procs. auto.
      + unfold override_from. rewrite set_format_procs. apply (IHO other eq_refl).
  Qed.

  (** C16 *)
  Lemma isort2_sorted : forall l x, (List.length l <> 2)%nat -> sorted_by_version l ->
    sorted_by_version (isort target_leb (l ++ [x])) /\ (List.length (isort target_leb (l ++ [x])) <= 2)%nat.
  Proof.
    intros [|a [|b [|c l]]] x N S; cbn; auto.
    - unfold target_leb. destruct (vleb (snd a) (snd x)) eqn:E; cbn; split; auto.
      + apply vleb_le in E. exact E.
      + unfold vleb in E. apply negb_false_iff in E. apply vltb_lt in E. unfold ver_le. lia.
    - simpl in N. lia.
    - destruct S.
  Qed.

  Lemma targets_inv : forall c, reach cpus re_ok c ->
    (List.length (c_targets c) <= 2)%nat /\ sorted_by_version (c_targets c).
  Proof.
    induction 1 as [|c m R [IH1 IH2] O IHO].
    - simpl. auto.
    - destruct m; cbn [run_cmd]; auto.
      + unfold add_exclusion_regex. destruct (re_ok p); auto.
      + destruct content as [ls|]; cbn [add_exclusion_file]; auto.
        rewrite (add_file_other c_targets); auto.
      + unfold add_backport. destruct (is_backport n); auto.
      + unfold enable_feature. destruct (is_feature n); auto.
      + unfold add_target. destruct (Nat.eqb_spec (List.length (c_targets c)) 2); auto.
        destruct t; auto; [destruct (parse_target s); auto|..]; cbn [fst c_targets w_targets];
          (split; [apply isort2_sorted; auto | apply isort2_sorted; auto]).
      + simpl. auto.
      + rewrite set_format_tgts. auto.
      + unfold override_from. rewrite set_format_tgts. apply (IHO other eq_refl).
      + simpl. auto.
  Qed.

  Lemma arg_target_iff : forall a t c, (List.length (c_targets c) <> 2)%nat ->
    (arg_target a t <-> exists c', add_target a c = (c', RTrue) /\
       c' = w_targets (isort target_leb (c_targets c ++ [t])) c).
  Proof.
    intros a t c N. unfold add_target. destruct (Nat.eqb_spec (List.length (c_targets c)) 2); [tauto|].
    split.
    - intros H; inversion H; subst; eauto.
      assert (P : parse_target s = Some t) by (apply parse_target_iff; auto). rewrite P. eauto.
    - destruct a as [s|v e|e v|].
      + destruct (parse_target s) eqn:P; intros [c' [E1 E2]]; [|discriminate].
        injection E1 as E1. subst c'. assert (K : isort target_leb (c_targets c ++ [t0]) = isort target_leb (c_targets c ++ [t]))
          by (apply (f_equal c_targets) in E2; exact E2).
        assert (t0 = t).
        { assert (Pm : Permutation (c_targets c ++ [t0]) (c_targets c ++ [t])).
          { eapply Permutation_trans; [apply Permutation_sym, (isort_perm target_leb)|]. rewrite K. apply isort_perm. }
          apply Permutation_app_inv_l in Pm. apply Permutation_length_1 in Pm. auto. }
        subst. apply parse_target_iff in P. constructor; tauto.
      + intros [c' [E1 E2]]. injection E1 as E1. subst c'.
        assert (K : isort target_leb (c_targets c ++ [(e, v)]) = isort target_leb (c_targets c ++ [t]))
          by (apply (f_equal c_targets) in E2; exact E2).
        assert (Pm : Permutation (c_targets c ++ [(e, v)]) (c_targets c ++ [t])).
        { eapply Permutation_trans; [apply Permutation_sym, (isort_perm target_leb)|]. rewrite K. apply isort_perm. }
        apply Permutation_app_inv_l in Pm. apply Permutation_length_1 in Pm. subst. constructor.
      + intros [c' [E1 E2]]. injection E1 as E1. subst c'.
        assert (K : isort target_leb (c_targets c ++ [(e, v)]) = isort target_leb (c_targets c ++ [t]))
          by (apply (f_equal c_targets) in E2; exact E2).
        assert (Pm : Permutation (c_targets c ++ [(e, v)]) (c_targets c ++ [t])).
        { eapply Permutation_trans; [apply Permutation_sym, (isort_perm target_leb)|]. rewrite K. apply isort_perm. }
        apply Permutation_app_inv_l in Pm. apply Permutation_length_1 in Pm. subst. constructor.
      + intros [c' [E1 _]]. discriminate.
  Qed.

  Lemma target_step : forall t c m, (List.length (c_targets c) <= 2)%nat ->
    (In t (c_targets (run_cmd cpus re_ok c m)) <->
     adds_target c m t \/ (In t (c_targets c) /\ ~ forgets_targets m)).
  Proof.
    intros t c m L. destruct m; cbn [run_cmd adds_target forgets_targets]; try (simpl; tauto).
    - unfold add_exclusion_regex. destruct (re_ok p); simpl; tauto.
    - destruct content as [ls|]; cbn [add_exclusion_file]; [|simpl; tauto].
      rewrite (add_file_other c_targets) by auto. simpl. tauto.
    - unfold add_backport. destruct (is_backport n); simpl; tauto.
    - unfold enable_feature. destruct (is_feature n); simpl; tauto.
    - unfold add_target. destruct (Nat.eqb_spec (List.length (c_targets c)) 2).
      + simpl. split; [tauto|]. intros [[_ H]|[H _]]; auto. lia.
      + assert (L' : (List.length (c_targets c) < 2)%nat) by lia.
        assert (S : forall x, In t (isort target_leb (c_targets c ++ [x])) <-> In t (c_targets c) \/ x = t).
        { intros x. rewrite isort_In, in_app_iff. simpl. tauto. }
        destruct t0 as [s|v e|e v|].
        * destruct (parse_target s) eqn:P; cbn [fst c_targets w_targets].
          -- rewrite S. split; [|].
             ++ intros [H| ->]; auto. left. split; auto. apply parse_target_iff in P. constructor; tauto.
             ++ intros [[H _]|[H _]]; auto. inversion H; subst.
                assert (parse_target s = Some t) by (apply parse_target_iff; auto). right; congruence.
          -- split; [tauto|]. intros [[H _]|[H _]]; auto. inversion H; subst.
             assert (parse_target s = Some t) by (apply parse_target_iff; auto). congruence.
        * cbn [fst c_targets w_targets]. rewrite S. split.
          -- intros [H|<-]; auto. left. split; auto. constructor.
          -- intros [[H _]|[H _]]; auto. inversion H; auto.
        * cbn [fst c_targets w_targets]. rewrite S. split.
          -- intros [H|<-]; auto. left. split; auto. constructor.
          -- intros [[H _]|[H _]]; auto. inversion H; auto.
        * simpl. split; auto. intros [[H _]|[H _]]; auto. inversion H.
    - rewrite set_format_tgts. simpl. tauto.
    - unfold override_from. rewrite set_format_tgts. simpl. tauto.
  Qed.

  Lemma targets_le2_step : forall c m, (List.length (c_targets c) <= 2)%nat ->
    (forall o, m = CmdOverrideFrom o -> List.length (c_targets o) <= 2)%nat ->
    (List.length (c_targets (run_cmd cpus re_ok c m)) <= 2)%nat.
  Proof.
    intros c m L O. destruct m; cbn [run_cmd]; auto.
    - unfold add_exclusion_regex. destruct (re_ok p); auto.
    - destruct content as [ls|]; cbn [add_exclusion_file]; auto.
      rewrite (add_file_other c_targets); auto.
    - unfold add_backport. destruct (is_backport n); auto.
    - unfold enable_feature. destruct (is_feature n); auto.
    - unfold add_target. destruct (Nat.eqb_spec (List.length (c_targets c)) 2); auto.
      assert (forall x, List.length (isort target_leb (c_targets c ++ [x])) <= 2)%nat.
      { intros x. rewrite (Permutation_length (isort_perm _ _)), app_length. simpl. lia. }
      destruct t; auto; [destruct (parse_target s); auto|..]; cbn [fst c_targets w_targets]; auto.
    - rewrite set_format_tgts. auto.
    - unfold override_from. rewrite set_format_tgts. apply (O other eq_refl).
  Qed.

  Lemma targets_history : forall l c t,
    (List.length (c_targets c) <= 2)%nat ->
    (forall o, In (CmdOverrideFrom o) l -> List.length (c_targets o) <= 2)%nat ->
    (In t (c_targets (run l c)) <->
     (exists l1 m l2, l = l1 ++ m :: l2 /\ adds_target (run l1 c) m t /\
                      Forall (fun x => ~ forgets_targets x) l2) \/
     (Forall (fun m => ~ forgets_targets m) l /\ In t (c_targets c))).
  Proof.
    intros l. induction l as [|m l IH] using rev_ind; intros c t L O.
    - cbn. split.
      + intros K. right. split; auto.
      + intros [[l1 [m [l2 [E _]]]]|[_ K]]; auto. destruct l1; discriminate.
    - assert (O1 : forall o, In (CmdOverrideFrom o) l -> (List.length (c_targets o) <= 2)%nat).
      { intros o H. apply O. apply in_or_app. auto. }
      assert (L1 : (List.length (c_targets (run l c)) <= 2)%nat).
      { clear IH O. revert c L. induction l as [|x l IH]; intros c L; auto. cbn. apply IH.
        - intros o H. apply O1. right; auto.
        - apply targets_le2_step; auto. intros o ->. apply O1. left; auto. }
      rewrite run_app. unfold run_cmds at 1. cbn [fold_left]. rewrite target_step by auto. rewrite IH by auto. split.
      + intros [K|[[[l1 [x [l2 [-> [A F]]]]]|[F K]] N]].
        * left. exists l, m, []. auto.
        * left. exists l1, x, (l2 ++ [m]). split; [rewrite <- app_assoc; reflexivity|].
          split; auto. apply Forall_app. auto.
        * right. split; auto. apply Forall_app. auto.
      + intros [[l1 [x [l2 [E [A F]]]]]|[F K]].
        * destruct l2 as [|y l2] using rev_ind.
          -- apply app_inj_tail in E. destruct E as [-> ->]. auto.
          -- clear IHl2. rewrite app_comm_cons, app_assoc in E. apply app_inj_tail in E.
             destruct E as [-> ->]. apply Forall_app in F. destruct F as [F1 F2]. inversion F2; subst.
             right. split; auto. left. exists l1, x, l2. auto.
        * apply Forall_app in F. destruct F as [F1 F2]. inversion F2; subst. auto.
  Qed.

  (** What add_target answers, and that a refused call has no effect. *)
  Lemma add_target_answer : forall a c, (List.length (c_targets c) <= 2)%nat ->
    add_answer a c (snd (add_target a c)) /\
    (snd (add_target a c) <> RTrue -> fst (add_target a c) = c) /\
    (snd (add_target a c) = RTrue -> exists t, arg_target a t /\
       Permutation (c_targets (fst (add_target a c))) (t :: c_targets c)).
  Proof.
    intros a c L. unfold add_answer, add_target.
    destruct (Nat.eqb_spec (List.length (c_targets c)) 2); cbn [fst snd].
    - split; [|split; auto; discriminate]. split; split; try discriminate; intros [H _]; lia.
    - assert (L' : (List.length (c_targets c) < 2)%nat) by lia.
      assert (Pm : forall x, Permutation (isort target_leb (c_targets c ++ [x])) (x :: c_targets c)).
      { intros x. eapply Permutation_trans; [apply isort_perm|]. apply Permutation_sym, Permutation_cons_append. }
      destruct a as [s|v e|e v|]; cbn [fst snd].
      + destruct (parse_target s) as [t|] eqn:P; cbn [fst snd].
        * assert (Q := P). apply parse_target_iff in Q.
          assert (A : arg_target (TStr s) t) by (constructor; tauto).
          split; [split; split|split]; intros; auto; try discriminate; try congruence.
          -- split; eauto.
          -- destruct H as [_ [s' [E K]]]. injection E as <-. exfalso. apply (K t). tauto.
          -- exists t. split; [exact A | apply Pm].
        * assert (Q : forall t, ~ (writes_target s t /\ in_range (snd t))).
          { intros t H. apply parse_target_iff in H. congruence. }
          split; [split; split|split]; intros; auto; try discriminate; try congruence.
          -- destruct H as [_ [t K]]. inversion K; subst. exfalso. apply (Q t). auto.
          -- split; eauto.
      + assert (A : arg_target (TTup v e) (e, v)) by constructor.
        split; [split; split|split]; intros; auto; try discriminate; try congruence.
        * split; eauto.
        * destruct H as [_ [s' [E K]]]. discriminate.
        * eexists. split; [exact A | apply Pm].
      + assert (A : arg_target (TPair e v) (e, v)) by constructor.
        split; [split; split|split]; intros; auto; try discriminate; try congruence.
        * split; eauto.
        * destruct H as [_ [s' [E K]]]. discriminate.
        * eexists. split; [exact A | apply Pm].
      + split; [split; split|split]; intros; auto; try discriminate; try congruence.
        * destruct H as [_ [t K]]. inversion K.
        * destruct H as [_ [s' [E K]]]. discriminate.
  Qed.
End History.

(** ** C17, C18: the queries *)
Lemma excluded_forms : forall c,
  (forall f k, is_excluded_kwarg c f k = is_excluded c (f ++ "(" ++ k ++ ")")) /\
  (forall n, is_excluded_ceh c n = is_excluded c ("ceh=" ++ n)) /\
  (forall n, is_excluded_ce c n = is_excluded c ("ce=" ++ n)).
Proof. intros c. repeat split; reflexivity. Qed.

Lemma exclusions_listed : forall cpus re_ok c, reach cpus re_ok c ->
  (forall n, In n (exclusions c) <-> is_excluded c n = true) /\
  StronglySorted (fun a b => str_leb a b = true) (exclusions c) /\ NoDup (exclusions c).
Proof.
  intros cpus re_ok c R. split; [|split].
  - intros n. unfold exclusions, is_excluded. rewrite isort_In, mem_In. tauto.
  - apply isort_sorted; [apply str_leb_total | apply str_leb_trans].
  - unfold exclusions. eapply Permutation_NoDup; [apply Permutation_sym, isort_perm|].
    induction R as [|c m R IH O IHO]; [constructor|].
    destruct m; cbn [run_cmd]; auto.
    + simpl. apply set_add_NoDup; auto.
    + unfold add_exclusion_regex. destruct (re_ok p); auto.
    + destruct content as [ls|]; cbn [add_exclusion_file]; auto.
      clear O IHO R. revert c IH. induction ls as [|x ls IHl]; intros c IH; auto.
      cbn [fold_left]. apply IHl. simpl. apply set_add_NoDup; auto.
    + simpl. constructor.
    + unfold add_backport. destruct (is_backport n); auto.
    + unfold enable_feature. destruct (is_feature n); auto.
    + unfold add_target. destruct (_ =? _)%nat; auto.
      destruct t; auto. destruct (parse_target s); auto.
    + rewrite set_format_excl. auto.
    + unfold override_from. rewrite set_format_excl. apply dedup_NoDup.
    + simpl. constructor.
Qed.

Lemma is_backport_iff : forall n, is_backport n = true <-> In n (map (fun e => fst (fst e)) backports_table).
Proof. intros n. unfold is_backport, backport_modules. apply mem_In. Qed.
Lemma is_feature_iff : forall n, is_feature n = true <-> In n (map fst features_table).
Proof. intros n. unfold is_feature, feature_names. apply mem_In. Qed.

Lemma backport_refused : forall n c,
  (snd (add_backport n c) = true <-> In n (map (fun e => fst (fst e)) backports_table)) /\
  (snd (add_backport n c) = false -> fst (add_backport n c) = c).
Proof.
  intros n c. unfold add_backport. rewrite <- is_backport_iff.
  destruct (is_backport n); simpl; split; auto; try tauto; discriminate.
Qed.
Lemma feature_refused : forall n c,
  (snd (enable_feature n c) = true <-> In n (map fst features_table)) /\
  (snd (enable_feature n c) = false -> fst (enable_feature n c) = c).
Proof.
  intros n c. unfold enable_feature. rewrite <- is_feature_iff.
  destruct (is_feature n); simpl; split; auto; try tauto; discriminate.
Qed.

(** ** C19 *)
Lemma set_format_settings : forall f c, parsable_settings (set_format f c).
Proof.
  intros [] c; unfold parsable_settings; simpl; try discriminate. intros _.
  repeat split. destruct (Z.leb_spec 3 (c_verbose c)); try lia.
  all: try (destruct (c_verbose c <? 3) eqn:E; lia).
Qed.

Lemma settings_step : forall cpus re_ok c m, keeps_settings m -> parsable_settings c ->
  parsable_settings (run_cmd cpus re_ok c m).
Proof.
  intros cpus re_ok c m K S. unfold parsable_settings in *.
  destruct m; cbn [run_cmd keeps_settings] in *; auto;
    try (intros F; specialize (S F); simpl; intuition; fail).
  - unfold add_exclusion_regex. destruct (re_ok p); auto.
  - destruct content as [ls|]; cbn [add_exclusion_file]; auto.
    rewrite (add_file_other c_format), (add_file_other c_verbose),
      (add_file_other c_ignore_incomp), (add_file_other c_show_tips); auto.
  - unfold add_backport. destruct (is_backport n); auto.
  - unfold enable_feature. destruct (is_feature n); auto.
  - unfold add_target. destruct (_ =? _)%nat; auto.
    destruct t; auto. destruct (parse_target s); auto.
  - apply set_format_settings.
  - unfold override_from. apply set_format_settings.
  - simpl. discriminate.
Qed.

(** ** C20 *)
Lemma sets_ok_reach : forall cpus re_ok c, reach cpus re_ok c -> sets_ok c.
Proof.
  intros cpus re_ok c R. split.
  - destruct (exclusions_listed _ _ _ R) as [_ [_ N]]. unfold exclusions in N.
    eapply Permutation_NoDup; [apply isort_perm | exact N].
  - induction R as [|c m R IH O IHO]; [constructor|].
    destruct m; cbn [run_cmd]; auto.
    + unfold add_exclusion_regex. destruct (re_ok p); auto. simpl. apply set_add_NoDup; auto.
    + destruct content as [ls|]; cbn [add_exclusion_file]; auto.
      rewrite (add_file_other c_exclusion_regex_set); auto.
    + simpl. constructor.
    + unfold add_backport. destruct (is_backport n); auto.
    + unfold enable_feature. destruct (is_feature n); auto.
    + unfold add_target. destruct (_ =? _)%nat; auto.
      destruct t; auto. destruct (parse_target s); auto.
    + rewrite set_format_regex. auto.
    + unfold override_from. rewrite set_format_regex. apply dedup_NoDup.
    + simpl. constructor.
Qed.

Lemma mem_same : forall n l m, (forall x, In x l <-> In x m) -> mem n l = mem n m.
Proof.
  intros n l m H. destruct (mem n l) eqn:E.
  - symmetry. apply mem_In, H, mem_In. auto.
  - symmetry. apply mem_false. apply mem_false in E. rewrite <- H. auto.
Qed.
Lemma existsb_same : forall {A} (f : A -> bool) l m, (forall x, In x l <-> In x m) -> existsb f l = existsb f m.
Proof.
  intros A f l m H. destruct (existsb f l) eqn:E.
  - symmetry. apply existsb_exists in E. destruct E as [x [I F]]. apply existsb_exists. exists x. split; auto. apply H; auto.
  - symmetry. destruct (existsb f m) eqn:F; auto. apply existsb_exists in F. destruct F as [x [I F]].
    assert (existsb f l = true) by (apply existsb_exists; exists x; split; auto; apply H; auto). congruence.
Qed.

Lemma existsb_ext_in' : forall {A} (f g : A -> bool) l, (forall x, f x = g x) -> existsb f l = existsb g l.
Proof. intros A f g l H. induction l; simpl; auto. rewrite H, IHl. auto. Qed.

Lemma override_same : forall a b, sets_ok b -> parsable_settings b -> same_answers (override_from b a) b.
Proof.
  intros a b [N1 N2] P. unfold parsable_settings in P.
  set (o := override_from b a).
  assert (E1 : c_exclusions_set o = dedup (exclusions b)) by (subst o; unfold override_from; apply set_format_excl).
  assert (E2 : c_exclusion_regex_set o = dedup (exclusion_regex b)) by (subst o; unfold override_from; apply set_format_regex).
  assert (I1 : forall x, In x (c_exclusions_set o) <-> In x (c_exclusions_set b)).
  { intros x. rewrite E1, dedup_In. unfold exclusions. apply isort_In. }
  assert (I2 : forall x, In x (c_exclusion_regex_set o) <-> In x (c_exclusion_regex_set b)).
  { intros x. rewrite E2, dedup_In. unfold exclusion_regex. apply isort_In. }
  unfold same_answers.
  assert (F : c_format b = FDefault \/ c_format b = FParsable) by (destruct (c_format b); auto).
  repeat match goal with |- _ /\ _ => split end;
    try (subst o; unfold override_from; destruct (c_format b); simpl; auto; fail).
  - subst o; unfold override_from. destruct (c_format b); simpl; auto. specialize (P eq_refl). lia.
  - subst o; unfold override_from. destruct (c_format b); simpl; auto. destruct (P eq_refl) as [_ [H _]]. auto.
  - subst o; unfold override_from. destruct (c_format b); simpl; auto. destruct (P eq_refl) as [_ [_ H]]. auto.
  - unfold exclusions. apply isort_str_eq; auto. rewrite E1. apply dedup_NoDup.
  - unfold exclusion_regex. apply isort_str_eq; auto. rewrite E2. apply dedup_NoDup.
  - intros n. apply mem_same; auto.
  - intros f k. apply mem_same; auto.
  - intros n. apply mem_same; auto.
  - intros n. apply mem_same; auto.
  - intros s p. apply existsb_same; auto.
Qed.

(** *** Objects *)
Lemma upd_same : forall {A} (f : nat -> A) k v, upd_at f k v k = v.
Proof. intros. unfold upd_at. rewrite Nat.eqb_refl. auto. Qed.
Lemma upd_other : forall {A} (f : nat -> A) k v x, x <> k -> upd_at f k v x = f x.
Proof. intros. unfold upd_at. destruct (Nat.eqb_spec x k); congruence. Qed.

Lemma set_format_view : forall h a r,
  view (heap_set_format h a r) a = set_format (f_kind (hp_fmts h r)) (view h a).
Proof.
  intros. unfold view, heap_set_format. cbn [hp_conf hp_fmts hp_sets hp_tgts]. rewrite !upd_same. cbn.
  destruct (f_kind (hp_fmts h r)); reflexivity.
Qed.

Lemma view_mk : forall h h' a, hp_conf h a = hp_conf h' a ->
  hp_sets h (h_bps (hp_conf h a)) = hp_sets h' (h_bps (hp_conf h a)) ->
  hp_sets h (h_feats (hp_conf h a)) = hp_sets h' (h_feats (hp_conf h a)) ->
  hp_tgts h (h_tgts (hp_conf h a)) = hp_tgts h' (h_tgts (hp_conf h a)) ->
  f_kind (hp_fmts h (h_fmt (hp_conf h a))) = f_kind (hp_fmts h' (h_fmt (hp_conf h a))) ->
  view h a = view h' a.
Proof. intros h h' a E1 E2 E3 E4 E5. unfold view. rewrite <- E1, E2, E3, E4, E5. reflexivity. Qed.

Section Objects.
  Variable cpus : Z.
  Variable re_ok : string -> bool.
  Notation hrun := (hrun cpus re_ok).
  Notation hruns := (hruns cpus re_ok).

  Lemma set_val_view : forall h a f,
    (forall v b fe t k, f (w_format k (w_targets t (w_features fe (w_backports b v)))) =
                        w_format k (w_targets t (w_features fe (w_backports b (f v))))) ->
    view (set_val h a (f (h_val (hp_conf h a)))) a = f (view h a).
  Proof.
    intros h a f C. unfold view at 1, set_val. cbn [hp_conf hp_sets hp_tgts hp_fmts].
    rewrite upd_same. cbn [h_val h_bps h_feats h_tgts h_fmt]. rewrite <- C. reflexivity.
  Qed.

  Lemma add_file_comm : forall ls v b fe t k,
    fold_left (fun c l => add_exclusion (strip l) c) ls (w_format k (w_targets t (w_features fe (w_backports b v)))) =
    w_format k (w_targets t (w_features fe (w_backports b (fold_left (fun c l => add_exclusion (strip l) c) ls v)))).
  Proof. induction ls as [|x ls IH]; intros; auto. cbn [fold_left]. rewrite <- IH. reflexivity. Qed.

  (** The object model answers as the value model does. *)
  Lemma hrun_view : forall h a m, obj_ok h a ->
    view (hrun h a m) a =
    match m with
    | HCmd (CmdOverrideFrom _) => view h a
    | HCmd c => run_cmd cpus re_ok (view h a) c
    | HOverride b => run_cmd cpus re_ok (view h a) (CmdOverrideFrom (view h b))
    end.
  Proof.
    intros h a [m|b] [[B1 [B2 [B3 B4]]] D].
    - destruct m;
        try (unfold Heap.hrun;
             match goal with |- view (set_val h a (run_cmd _ _ _ ?c)) a = _ =>
               apply (set_val_view h a (fun v => run_cmd cpus re_ok v c)); intros; reflexivity end).
      + unfold Heap.hrun. apply (set_val_view h a (fun v => run_cmd cpus re_ok v (CmdAddExclusionRegex p))).
        intros. cbn [run_cmd]. unfold add_exclusion_regex. destruct (re_ok p); reflexivity.
      + unfold Heap.hrun. apply (set_val_view h a (fun v => run_cmd cpus re_ok v (CmdAddExclusionFile content))).
        intros. cbn [run_cmd]. destruct content; cbn [add_exclusion_file]; auto. apply add_file_comm.
      + cbn [Heap.hrun run_cmd]. unfold add_backport. destruct (is_backport n); auto.
        unfold view, put_set. cbn [hp_conf hp_sets hp_tgts hp_fmts fst]. rewrite upd_same, (upd_other _ _ _ (h_feats _)) by auto.
        reflexivity.
      + cbn [Heap.hrun run_cmd]. unfold view, put_set. cbn [hp_conf hp_sets hp_tgts hp_fmts fst].
        rewrite upd_same, (upd_other _ _ _ (h_feats _)) by auto. reflexivity.
      + cbn [Heap.hrun run_cmd]. unfold enable_feature. destruct (is_feature n); auto.
        unfold view, put_set. cbn [hp_conf hp_sets hp_tgts hp_fmts fst]. rewrite upd_same, (upd_other _ _ _ (h_bps _)) by auto.
        reflexivity.
      + cbn [Heap.hrun run_cmd]. unfold view, put_set. cbn [hp_conf hp_sets hp_tgts hp_fmts fst].
        rewrite upd_same, (upd_other _ _ _ (h_bps _)) by auto. reflexivity.
      + cbn [Heap.hrun run_cmd]. transitivity (w_targets (c_targets (fst (add_target t (view h a)))) (view h a)).
        * unfold view at 1, put_tgts. cbn [hp_conf hp_sets hp_tgts hp_fmts]. rewrite upd_same. reflexivity.
        * unfold add_target. destruct (_ =? _)%nat; [unfold view; reflexivity|].
          destruct t; try reflexivity. destruct (parse_target s); reflexivity.
      + cbn [Heap.hrun run_cmd]. unfold view. cbn [hp_conf hp_sets hp_tgts hp_fmts]. rewrite !upd_same. reflexivity.
      + cbn [Heap.hrun run_cmd]. unfold alloc_format. rewrite set_format_view. cbn [hp_fmts]. rewrite upd_same.
        cbn [f_kind]. f_equal. apply view_mk; auto. cbn [hp_fmts hp_conf]. rewrite upd_other by lia. auto.
      + reflexivity.
      + cbn [Heap.hrun run_cmd]. unfold heap_reset. rewrite set_format_view. cbn [hp_fmts]. rewrite upd_same.
        unfold view. cbn [hp_conf hp_sets hp_tgts hp_fmts]. rewrite !upd_same. cbn [h_val h_bps h_feats h_tgts h_fmt].
        repeat (rewrite upd_same || rewrite upd_other by lia). reflexivity.
    - cbn [Heap.hrun run_cmd]. unfold heap_override. rewrite set_format_view. cbn [hp_fmts].
      unfold override_from. unfold view. cbn [hp_conf hp_sets hp_tgts hp_fmts]. rewrite !upd_same.
      cbn [h_val h_bps h_feats h_tgts h_fmt].
      destruct (f_kind (hp_fmts h (h_fmt (hp_conf h b)))); reflexivity.
  Qed.

  Lemma obj_ok_step : forall h a c, obj_ok h a -> obj_ok (hrun h a (HCmd c)) a.
  Proof.
    intros h a c [[B1 [B2 [B3 B4]]] D]. unfold obj_ok.
    destruct c; cbn [Heap.hrun]; unfold set_val, put_set, put_tgts, alloc_format, heap_reset, heap_set_format;
      try (match goal with |- context [if ?x then _ else _] => destruct x end);
      cbn [hp_conf hp_next]; rewrite ?upd_same; cbn [h_bps h_feats h_tgts h_fmt]; rewrite ?upd_same;
      cbn [h_bps h_feats h_tgts h_fmt]; repeat split; auto; try lia.
  Qed.
End Objects.

Section Frame.
  Variable cpus : Z.
  Variable re_ok : string -> bool.
  Notation hrun := (hrun cpus re_ok).
  Notation hruns := (hruns cpus re_ok).

  Definition is_call (m : hcmd) : Prop := match m with HCmd _ => True | HOverride _ => False end.

  (** A call on [a] leaves what an unrelated [b] answers. *)
  Lemma frame_step : forall h a b c, a <> b -> obj_ok h a -> obj_ok h b -> apart h a b ->
    view (hrun h a (HCmd c)) b = view h b /\
    obj_ok (hrun h a (HCmd c)) b /\ apart (hrun h a (HCmd c)) a b.
  Proof.
    intros h a b c N OA [[B1 [B2 [B3 B4]]] D] [P1 [P2 [P3 [P4 P5]]]].
    destruct OA as [[A1 [A2 [A3 A4]]] DA].
    assert (Nb : b <> a) by auto.
    split; [|split].
    - destruct c; cbn [Heap.hrun]; unfold set_val, put_set, put_tgts, alloc_format, heap_reset, heap_set_format;
        try (match goal with |- context [if ?x then _ else _] => destruct x end); auto;
        apply view_mk; cbn [hp_conf hp_next hp_sets hp_tgts hp_fmts];
        repeat (rewrite upd_same || rewrite (fun A (f : nat -> A) v => upd_other f a v b Nb) || rewrite upd_other by (auto; lia)); auto.
    - unfold obj_ok.
      destruct c; cbn [Heap.hrun]; unfold set_val, put_set, put_tgts, alloc_format, heap_reset, heap_set_format;
        try (match goal with |- context [if ?x then _ else _] => destruct x end);
        cbn [hp_conf hp_next]; repeat (rewrite upd_same || rewrite (fun A (f : nat -> A) v => upd_other f a v b Nb) || rewrite upd_other by (auto; lia)); repeat split; auto; lia.
    - unfold apart.
      destruct c; cbn [Heap.hrun]; unfold set_val, put_set, put_tgts, alloc_format, heap_reset, heap_set_format;
        try (match goal with |- context [if ?x then _ else _] => destruct x end);
        cbn [hp_conf hp_next]; repeat (rewrite upd_same || rewrite (fun A (f : nat -> A) v => upd_other f a v b Nb) || rewrite upd_other by (auto; lia));
        cbn [h_bps h_feats h_tgts h_fmt];  repeat (rewrite upd_same || rewrite (fun A (f : nat -> A) v => upd_other f a v b Nb) || rewrite upd_other by (auto; lia));
        cbn [h_bps h_feats h_tgts h_fmt]; repeat split; auto; lia.
  Qed.

  Lemma frame_history : forall l h a b, Forall is_call l -> a <> b -> obj_ok h a -> obj_ok h b -> apart h a b ->
    view (hruns h a l) b = view h b.
  Proof.
    induction l as [|m l IH]; intros h a b F N OA OB P; auto. inversion F as [|? ? H1 H2]; subst.
    destruct m as [c|]; [|destruct H1].
    destruct (frame_step h a b c N OA OB P) as [V [OB' P']]. cbn [Heap.hruns fold_left].
    change (view (hruns (hrun h a (HCmd c)) a l) b = view h b).
    rewrite <- V. apply IH; auto. apply obj_ok_step; auto.
  Qed.

  Lemma private_step : forall h a b c, a <> b -> obj_ok h b -> ~ touches_shared c ->
    view (hrun h a (HCmd c)) b = view h b /\ obj_ok (hrun h a (HCmd c)) b.
  Proof.
    intros h a b c N [[B1 [B2 [B3 B4]]] D] T.
    assert (Nb : b <> a) by auto.
    split.
    - destruct c; cbn [touches_shared] in T; try tauto;
        cbn [Heap.hrun]; unfold set_val, put_set, put_tgts, alloc_format, heap_reset, heap_set_format;
        apply view_mk; cbn [hp_conf hp_next hp_sets hp_tgts hp_fmts];
        repeat (rewrite upd_same || rewrite (fun A (f : nat -> A) v => upd_other f a v b Nb) || rewrite upd_other by (auto; lia)); auto.
    - unfold obj_ok.
      destruct c; cbn [touches_shared] in T; try tauto;
        cbn [Heap.hrun]; unfold set_val, put_set, put_tgts, alloc_format, heap_reset, heap_set_format;
        cbn [hp_conf hp_next]; repeat (rewrite upd_same || rewrite (fun A (f : nat -> A) v => upd_other f a v b Nb) || rewrite upd_other by (auto; lia)); repeat split; auto; lia.
  Qed.

  Lemma private_history : forall l h a b, a <> b -> obj_ok h b ->
    Forall (fun m => exists c, m = HCmd c /\ ~ touches_shared c) l ->
    view (hruns h a l) b = view h b.
  Proof.
    induction l as [|m l IH]; intros h a b N OB F; auto. inversion F as [|? ? [c [-> T]] H2]; subst.
    destruct (private_step h a b c N OB T) as [V OB'].
    change (view (hruns (hrun h a (HCmd c)) a l) b = view h b). rewrite <- V. apply IH; auto.
  Qed.

  Lemma override_frame : forall h a b, a <> b ->
    view (hrun h a (HOverride b)) b = view h b /\ (obj_ok h b -> obj_ok (hrun h a (HOverride b)) b).
  Proof.
    intros h a b N. assert (Nb : b <> a) by auto. split.
    - cbn [Heap.hrun]. unfold heap_override, heap_set_format.
      apply view_mk; cbn [hp_conf hp_next hp_sets hp_tgts hp_fmts];
        repeat (rewrite upd_same || rewrite (fun A (f : nat -> A) v => upd_other f a v b Nb) || rewrite upd_other by (auto; lia)); auto.
    - intros [[B1 [B2 [B3 B4]]] D]. cbn [Heap.hrun]. unfold obj_ok, heap_override, heap_set_format.
      cbn [hp_conf hp_next]; repeat (rewrite upd_same || rewrite (fun A (f : nat -> A) v => upd_other f a v b Nb) || rewrite upd_other by (auto; lia)); repeat split; auto; lia.
  Qed.
End Frame.

(** ** C21 *)
Lemma boolean_state_iff : forall v b, boolean_state v = Some b <->
  (In (lower v) ["1"; "yes"; "true"; "on"] /\ b = true) \/
  (In (lower v) ["0"; "no"; "false"; "off"] /\ b = false).
Proof.
  intros v b. unfold boolean_state. destruct (mem (lower v) ["1"; "yes"; "true"; "on"]) eqn:E.
  - apply mem_In in E. split.
    + intros H. injection H as <-. auto.
    + intros [[_ ->]|[H _]]; auto. exfalso. simpl in E, H.
      destruct E as [E|[E|[E|[E|[]]]]]; destruct H as [H|[H|[H|[H|[]]]]]; congruence.
  - apply mem_false in E. destruct (mem (lower v) ["0"; "no"; "false"; "off"]) eqn:F.
    + apply mem_In in F. split.
      * intros H. injection H as <-. auto.
      * intros [[H _]|[_ ->]]; auto. contradiction.
    + apply mem_false in F. split; [discriminate|]. intros [[H _]|[H _]]; contradiction.
Qed.
Lemma boolean_state_none : forall v, boolean_state v = None <->
  ~ In (lower v) ["1"; "yes"; "true"; "on"; "0"; "no"; "false"; "off"].
Proof.
  intros v. destruct (boolean_state v) as [b|] eqn:E.
  - split; [discriminate|]. intros H. exfalso. apply H. apply boolean_state_iff in E. simpl in *. tauto.
  - split; auto. intros _ H.
    assert (K : boolean_state v = Some true \/ boolean_state v = Some false).
    { rewrite !boolean_state_iff. simpl in *. tauto. }
    destruct K; congruence.
Qed.

Lemma getbool_iff : forall sec o b, (exists d, sec_default sec o = Some d) ->
  (getbool sec o = Ok b <-> bool_opt sec o b).
Proof.
  intros sec o b [d D]. unfold getbool, bool_opt, says_bool.
  destruct (sec_get sec o) as [[v|]|e] eqn:G.
  - rewrite D. destruct (boolean_state v) as [b'|] eqn:E.
    + split.
      * intros H. injection H as <-. exists v, d. repeat split; auto. apply boolean_state_iff in E. tauto.
      * intros [v' [d' [H1 [H2 H3]]]]. injection H1 as <-. f_equal.
        assert (boolean_state v = Some b).
        { apply boolean_state_iff. destruct H3 as [H|[H|[H _]]]; auto.
          apply boolean_state_none in H. congruence. }
        congruence.
    + assert (E' := E). apply boolean_state_none in E'. split.
      * intros H. injection H as <-. exists v, d. repeat split; auto. right. right. split; auto.
        split; intros K; [symmetry; apply String.eqb_eq; exact K | subst d; reflexivity].
      * intros [v' [d' [H1 [H2 H3]]]]. injection H1 as <-. injection H2 as <-. f_equal.
        destruct H3 as [[H _]|[[H _]|[_ H]]]; try (exfalso; apply E'; simpl in *; tauto).
        destruct (String.eqb_spec "True" d) as [<-|K].
        -- symmetry. apply H; auto.
        -- destruct b; auto. exfalso. apply K. symmetry. apply H; auto.
  - split; [discriminate|]. intros [v [d' [H _]]]. discriminate.
  - split; [discriminate|]. intros [v [d' [H _]]]. discriminate.
Qed.

Lemma getuint_iff : forall sec o n, (exists d, sec_default sec o = Some d) ->
  (getuint sec o = Ok n <-> uint_opt sec o n).
Proof.
  intros sec o n [d D]. unfold getuint, uint_opt. destruct (sec_get sec o) as [[v|]|e] eqn:G.
  - rewrite D. destruct (String.eqb_spec v "") as [->|N].
    + split.
      * intros H. exists "". split; auto. right. split; auto. exists d. split; auto.
        destruct (py_int d); congruence.
      * intros [v' [H1 H]]. injection H1 as <-. destruct H as [[H _]|[_ [d' [H1 H2]]]]; [congruence|].
        injection H1 as <-. rewrite H2. auto.
    + split.
      * intros H. exists v. split; auto. left. split; auto. destruct (py_int v) as [k|]; [|discriminate].
        destruct (Z.ltb_spec k 0); [discriminate|]. injection H as <-. auto.
      * intros [v' [H1 H]]. injection H1 as <-. destruct H as [[_ [H K]]|[H _]]; [|congruence].
        rewrite H. destruct (Z.ltb_spec n 0); [lia|auto].
  - split; [discriminate|]. intros [v [H _]]. discriminate.
  - split; [discriminate|]. intros [v [H _]]. discriminate.
Qed.

Lemma getstringlist_iff : forall sec o l, getstringlist sec o = Ok l <-> list_opt sec o l.
Proof.
  intros sec o l. unfold getstringlist, list_opt. destruct (sec_get sec o) as [[v|]|e] eqn:G.
  - split.
    + intros H. injection H as <-. eauto.
    + intros [v' [H ->]]. injection H as <-. auto.
  - split; [discriminate|]. intros [v [H _]]. discriminate.
  - split; [discriminate|]. intros [v [H _]]. discriminate.
Qed.

Definition add_all (l s : list string) : list string := fold_left (fun s x => set_add x s) l s.
Lemma add_all_In : forall l s x, In x (add_all l s) <-> In x l \/ In x s.
Proof.
  induction l as [|y l IH]; intros s x; simpl; [tauto|]. unfold add_all in *. simpl. rewrite IH, set_add_In.
  intuition.
Qed.

Lemma fold_exclusions : forall l c,
  fold_left (fun c x => add_exclusion x c) l c = w_exclusions_set (add_all l (c_exclusions_set c)) c.
Proof. induction l as [|x l IH]; intros c; [destruct c; reflexivity|]. cbn [fold_left]. rewrite IH. reflexivity. Qed.

Lemma fold_regex : forall re_ok l c c',
  fold_res (fun c x => add_exclusion_regex re_ok x c) l c = Ok c' <->
  (forall x, In x l -> re_ok x = true) /\ c' = w_exclusion_regex_set (add_all l (c_exclusion_regex_set c)) c.
Proof.
  intros re_ok. induction l as [|x l IH]; intros c c'; cbn [fold_res].
  - split.
    + intros H. injection H as <-. split; [intros x []|destruct c; reflexivity].
    + intros [_ ->]. destruct c; reflexivity.
  - unfold add_exclusion_regex at 1. destruct (re_ok x) eqn:R; cbn.
    + rewrite IH. split.
      * intros [H ->]. split; [|reflexivity]. intros y [<-|Hy]; auto.
      * intros [H ->]. split; auto.
    + split; [discriminate|]. intros [H _]. rewrite H in R by auto. discriminate.
Qed.
Lemma fold_backports : forall l c c',
  fold_res (fun c x => match add_backport x c with (c', true) => Ok c' | _ => Err stop end) l c = Ok c' <->
  (forall x, In x l -> is_backport x = true) /\ c' = w_backports (add_all l (c_backports c)) c.
Proof.
  induction l as [|x l IH]; intros c c'; cbn [fold_res].
  - split.
    + intros H. injection H as <-. split; [intros x []|destruct c; reflexivity].
    + intros [_ ->]. destruct c; reflexivity.
  - unfold add_backport at 1. destruct (is_backport x) eqn:R; cbn [fst bindr].
    + rewrite IH. split.
      * intros [H ->]. split; [|reflexivity]. intros y [<-|Hy]; auto.
      * intros [H ->]. split; [|reflexivity]. intros y Hy. apply H. right. exact Hy.
    + split; [discriminate|]. intros [H _]. rewrite H in R by (left; auto). discriminate.
Qed.
Lemma fold_features : forall l c c',
  fold_res (fun c x => match enable_feature x c with (c', true) => Ok c' | _ => Err stop end) l c = Ok c' <->
  (forall x, In x l -> is_feature x = true) /\ c' = w_features (add_all l (c_features c)) c.
Proof.
  induction l as [|x l IH]; intros c c'; cbn [fold_res].
  - split.
    + intros H. injection H as <-. split; [intros x []|destruct c; reflexivity].
    + intros [_ ->]. destruct c; reflexivity.
  - unfold enable_feature at 1. destruct (is_feature x) eqn:R; cbn [fst bindr].
    + rewrite IH. split.
      * intros [H ->]. split; [|reflexivity]. intros y [<-|Hy]; auto.
      * intros [H ->]. split; [|reflexivity]. intros y Hy. apply H. right. exact Hy.
    + split; [discriminate|]. intros [H _]. rewrite H in R by (left; auto). discriminate.
Qed.

Definition push_target (l : list target) (t : target) : list target := isort target_leb (l ++ [t]).
Lemma fold_targets : forall l c c', (List.length (c_targets c) <= 2)%nat ->
  (fold_res (fun c x => match add_target (TStr x) c with (c', RTrue) => Ok c' | _ => Err stop end) l c = Ok c' <->
   exists ts, Forall2 (fun s t => writes_target s t /\ in_range (snd t)) l ts /\
     (List.length (c_targets c) + List.length l <= 2)%nat /\
     c' = w_targets (fold_left push_target ts (c_targets c)) c).
Proof.
  induction l as [|x l IH]; intros c c' L; cbn [fold_res].
  - split.
    + intros H. injection H as <-. exists []. simpl. repeat split; auto; try lia. destruct c; reflexivity.
    + intros [ts [H [_ ->]]]. inversion H. destruct c; reflexivity.
  - unfold add_target at 1. destruct (Nat.eqb_spec (List.length (c_targets c)) 2).
    + cbn. split; [discriminate|]. intros [ts [_ [K _]]]. simpl in K. lia.
    + destruct (parse_target x) as [t|] eqn:P; cbn [fst bindr].
      * assert (LL : List.length (isort target_leb (c_targets c ++ [t])) = S (List.length (c_targets c))).
        { rewrite isort_length, app_length. simpl. lia. }
        rewrite IH by (cbn [c_targets w_targets]; lia). cbn [c_targets w_targets]. rewrite LL.
        assert (Q := P). apply parse_target_iff in Q. split.
        -- intros [ts [F [K ->]]]. exists (t :: ts). split; [constructor; auto|]. split; [simpl; lia|]. reflexivity.
        -- intros [ts [F [K ->]]]. inversion F as [|? t' ? ts' [F1 F2] F3]; subst.
           assert (parse_target x = Some t') by (apply parse_target_iff; auto).
           assert (t' = t) by congruence. subst. exists ts'. split; auto. split; [simpl in K; lia|]. reflexivity.
      * split; [discriminate|]. intros [ts [F _]]. inversion F as [|? t' ? ts' F1 F3]; subst.
        apply parse_target_iff in F1. congruence.
Qed.

Lemma push_sorted : forall ts, (List.length ts <= 2)%nat ->
  Permutation (fold_left push_target ts []) ts /\ sorted_by_version (fold_left push_target ts []).
Proof.
  intros [|a [|b [|c ts]]] L; simpl in L; try lia; cbn [fold_left]; unfold push_target.
  - simpl. auto.
  - cbn. auto.
  - change (isort target_leb ([] ++ [a])) with [a]. split.
    + apply isort_perm.
    + destruct (isort2_sorted [a] b); auto. simpl. lia.
Qed.

Lemma has_default_in : forall sec o, has_defaults sec -> mem o option_names = true ->
  exists d, sec_default sec o = Some d.
Proof. intros sec o H M. apply H. apply mem_In. exact M. Qed.

Lemma from_name_iff : forall s f, from_name s = Some f <->
  (s = "default" /\ f = FDefault) \/ (s = "parsable" /\ f = FParsable).
Proof.
  intros s f. unfold from_name. destruct (String.eqb_spec s "default") as [->|N].
  - split; [intros H; injection H as <-; auto|]. intros [[_ ->]|[H _]]; auto. discriminate.
  - destruct (String.eqb_spec s "parsable") as [->|N2].
    + split; [intros H; injection H as <-; auto|]. intros [[H _]|[_ ->]]; auto. contradiction.
    + split; [discriminate|]. intros [[H _]|[H _]]; contradiction.
Qed.

Lemma parse_section_says : forall cpus re_ok sec c, has_defaults sec ->
  parse_section cpus re_ok sec = Ok c -> section_says cpus re_ok sec c.
Proof.
  intros cpus re_ok sec c HD H. unfold parse_section in H.
  repeat match type of H with
  | bindr (getbool sec ?o) _ = _ =>
      let b := fresh "b" in let E := fresh "E" in
      destruct (getbool sec o) as [b|] eqn:E; cbn [bindr] in H; [|discriminate];
      apply getbool_iff in E; [|apply has_default_in; [exact HD | reflexivity]]
  | bindr (getuint sec ?o) _ = _ =>
      let b := fresh "n" in let E := fresh "E" in
      destruct (getuint sec o) as [b|] eqn:E; cbn [bindr] in H; [|discriminate];
      apply getuint_iff in E; [|apply has_default_in; [exact HD | reflexivity]]
  | bindr (getstringlist sec ?o) _ = _ =>
      let b := fresh "l" in let E := fresh "E" in
      destruct (getstringlist sec o) as [b|] eqn:E; cbn [bindr] in H; [|discriminate];
      apply getstringlist_iff in E
  | bindr ?m _ = _ =>
      let b := fresh "c" in let E := fresh "F" in
      destruct m as [b|] eqn:E; cbn [bindr] in H; [|discriminate]
  end.
  apply fold_regex in F. destruct F as [FR ->].
  apply fold_backports in F0. destruct F0 as [FB ->].
  apply fold_features in F1. destruct F1 as [FF ->].
  apply fold_targets in F2; [|rewrite fold_exclusions; cbn; lia].
  destruct F2 as [ts [FT [LT ->]]]. rewrite fold_exclusions in *.
  assert (LT' : (List.length l3 <= 2)%nat) by (cbn in LT; lia). clear LT.
  assert (LL : (List.length ts <= 2)%nat).
  { assert (K : List.length l3 = List.length ts) by (clear - FT; induction FT; simpl; auto). lia. }
  destruct (push_sorted ts LL) as [PT ST].
  destruct (sec_get sec "format") as [[fs|]|] eqn:G; try discriminate.
  destruct (from_name (strip fs)) as [f|] eqn:FN; [|discriminate].
  injection H as <-.
  apply from_name_iff in FN.
  assert (W : forall c0, c_format (set_format f c0) = f) by (destruct f; reflexivity).
  assert (X : format_opt sec f) by (exists fs; tauto).
  assert (Q : forall (x : list string), same_set (add_all x []) x)
    by (intros x y; rewrite add_all_In; simpl; tauto).
  unfold section_says. rewrite W.
  destruct f; cbn -[add_all push_target Z.max backports_table features_table z_str] ; 
  (repeat match goal with |- _ /\ _ => split end; try assumption).
  all: try (eexists; split; [eassumption|]).
  all: try (split; [apply Q|assumption]).
  all: try apply Q.
  all: try reflexivity.
  all: try (split; [apply Q|]; intros x Hx; first [apply is_backport_iff | apply is_feature_iff]; auto).
  all: try (exists l3, ts; split; [assumption|]; split; [split; assumption|]; split; assumption).
  all: exists n, b1, b3; repeat split; auto.
Qed.

Lemma section_says_parse : forall cpus re_ok sec c, has_defaults sec ->
  section_says cpus re_ok sec c -> exists c', parse_section cpus re_ok sec = Ok c'.
Proof.
  intros cpus re_ok sec c HD H. unfold section_says in H.
  repeat match goal with
  | H : _ /\ _ |- _ => destruct H
  | H : exists _, _ |- _ => destruct H
  | H : bool_opt sec ?o _ |- _ => apply getbool_iff in H; [|apply has_default_in; [exact HD | reflexivity]]
  | H : uint_opt sec ?o _ |- _ => apply getuint_iff in H; [|apply has_default_in; [exact HD | reflexivity]]
  | H : list_opt sec ?o _ |- _ => apply getstringlist_iff in H
  | H : format_opt _ _ |- _ => destruct H as [? [? ?]]
  | H : target_lines _ _ |- _ => destruct H
  end.
  unfold parse_section.
  repeat (match goal with H : ?x = Ok _ |- context [bindr ?x _] => rewrite H; cbn [bindr] end ||
          match goal with
          | |- context [bindr (fold_res _ ?l ?c0) _] =>
              first
              [ rewrite (proj2 (fold_regex re_ok l c0 (w_exclusion_regex_set (add_all l (c_exclusion_regex_set c0)) c0)))
                  by (split; [assumption|reflexivity])
              | rewrite (proj2 (fold_backports l c0 (w_backports (add_all l (c_backports c0)) c0)))
                  by (split; [intros ? ?; apply is_backport_iff; auto|reflexivity])
              | rewrite (proj2 (fold_features l c0 (w_features (add_all l (c_features c0)) c0)))
                  by (split; [intros ? ?; apply is_feature_iff; auto|reflexivity]) ];
              cbn [bindr]
          end).
  match goal with |- context [bindr (fold_res ?f ?l ?c0) _] =>
    let F := fresh "F" in
    match goal with FT : Forall2 _ l ?ts |- _ =>
      destruct (fold_targets l c0 (w_targets (fold_left push_target ts (c_targets c0)) c0)) as [_ F];
      [rewrite fold_exclusions; cbn; lia|];
      rewrite F by (exists ts; split; [assumption|]; split; [rewrite fold_exclusions; cbn; lia|reflexivity])
    end
  end.
  cbn [bindr].
  match goal with H : sec_get sec "format" = _ |- _ => rewrite H end.
  match goal with H : _ \/ _ |- _ => apply from_name_iff in H; rewrite H end.
  eauto.
Qed.

(** An empty section gives the default configuration. *)
Lemma empty_section_default : forall cpus re_ok, 0 < cpus ->
  parse_section cpus re_ok (section_of cpus []) = Ok (default_config cpus).
Proof.
  intros cpus re_ok P.
  assert (H : getuint (section_of cpus []) "processes" = Ok cpus).
  { unfold getuint. cbn -[z_str py_int]. assert (N := z_str_nonempty cpus).
    destruct (String.eqb_spec (z_str cpus) "") as [E|_]; [contradiction|].
    rewrite py_int_z_str by lia. destruct (Z.ltb_spec cpus 0); [lia|auto]. }
  unfold parse_section. rewrite H. cbn -[z_str]. unfold set_processes.
  destruct (Z.ltb_spec 0 cpus); [|lia]. reflexivity.
Qed.

Lemma section_of_defaults : forall cpus opts, has_defaults (section_of cpus opts).
Proof.
  intros cpus opts o H. unfold option_names in H. simpl in H.
  repeat (destruct H as [<-|H]; [eexists; reflexivity|]). destruct H.
Qed.

(** ** C22 *)
Section Detect.
  Variable candidate : list string -> string -> probe.
  Variable exists_in : list string -> string -> bool.
  Notation names := ["vermin.ini"; "vermin.conf"; ".vermin"; "setup.cfg"].

  Lemma stops_dec : forall p, {stops p} + {~ stops p}.
  Proof. unfold stops. destruct p; try (left; auto; fail); right; intros [H|H]; discriminate. Qed.

  Lemma probe_folder_spec : forall f l,
    match probe_folder candidate f l with
    | Ok None => forall x, In x l -> ~ stops (candidate f x)
    | Ok (Some n) => candidate f n = PrSection /\
        exists a b, l = a ++ n :: b /\ forall x, In x a -> ~ stops (candidate f x)
    | Err e => e = ConfigError /\ exists n, candidate f n = PrOtherError /\
        exists a b, l = a ++ n :: b /\ forall x, In x a -> ~ stops (candidate f x)
    end.
  Proof.
    intros f. induction l as [|n l IH]; cbn [probe_folder].
    - intros x [].
    - destruct (candidate f n) eqn:E.
      1,2,4: assert (NS : ~ stops (candidate f n)) by (rewrite E; intros [H|H]; discriminate);
         destruct (probe_folder candidate f l) as [[m|]|e];
         [ destruct IH as [I1 [a [b [-> I2]]]]; split; auto; exists (n :: a), b; split; auto; intros x [<-|H]; auto
         | intros x [<-|H]; auto
         | destruct IH as [I0 [m [I1 [a [b [-> I2]]]]]]; split; auto; exists m; split; auto; exists (n :: a), b; split; auto; intros x [<-|H]; auto ].
      + split; [exact E|]. exists [], l. split; [reflexivity|]. intros x [].
      + split; [reflexivity|]. exists n. split; [exact E|]. exists [], l. split; [reflexivity|]. intros x [].
  Qed.

  Lemma boundary_iff : forall f, at_boundary exists_in f = false <->
    forall b, In b [".bzr"; ".fslckout"; ".git"; ".hg"; ".p4root"; ".pijul"; ".svn"; "_darcs"] -> exists_in f b = false.
  Proof.
    intros f. unfold at_boundary. change project_boundaries with [".bzr"; ".fslckout"; ".git"; ".hg"; ".p4root"; ".pijul"; ".svn"; "_darcs"].
    split.
    - intros H b I. destruct (exists_in f b) eqn:E; auto. 
      assert (existsb (exists_in f) [".bzr"; ".fslckout"; ".git"; ".hg"; ".p4root"; ".pijul"; ".svn"; "_darcs"] = true)
        by (apply existsb_exists; eauto). congruence.
    - intros H. destruct (existsb _ _) eqn:E; auto. apply existsb_exists in E. destruct E as [b [I E]].
      rewrite H in E; auto.
  Qed.

  Lemma searched_length : forall s g, searched exists_in s g -> (List.length g <= List.length s)%nat.
  Proof. induction 1; simpl; lia. Qed.

  (** The outcome, in one statement. *)
  Lemma detect_spec : forall s,
    match detect_config_file candidate exists_in s with
    | Ok (Some (f, n)) => first_hit candidate exists_in s f n /\ candidate f n = PrSection
    | Ok None => forall g x, searched exists_in s g -> In x names -> ~ stops (candidate g x)
    | Err e => e = ConfigError /\ exists f n, first_hit candidate exists_in s f n /\ candidate f n = PrOtherError
    end.
  Proof.
    induction s as [|d s IH]; cbn [detect_config_file];
      match goal with |- context [probe_folder candidate ?f config_file_names] =>
        assert (PF := probe_folder_spec f config_file_names); destruct (probe_folder candidate f config_file_names) as [[n|]|e] end.
    - destruct PF as [P1 [a [b [P2 P3]]]]. split; auto. repeat split.
      + constructor.
      + left. auto.
      + exists a, b. split; auto.
      + intros g S L. apply searched_length in S. lia.
    - assert (R : forall g x, searched exists_in [] g -> In x names -> ~ stops (candidate g x)).
      { intros g x S I. inversion S; subst. apply PF. exact I. }
      destruct (at_boundary exists_in []); auto.
    - destruct PF as [P0 [n [P1 [a [b [P2 P3]]]]]]. split; auto. exists [], n. split; auto. repeat split.
      + constructor.
      + right. auto.
      + exists a, b. split; auto.
      + intros g S L. apply searched_length in S. lia.
    - destruct PF as [P1 [a [b [P2 P3]]]]. split; auto. repeat split.
      + constructor.
      + left. auto.
      + exists a, b. split; auto.
      + intros g S L. apply searched_length in S. lia.
    - destruct (at_boundary exists_in (d :: s)) eqn:B.
      + intros g x S I. inversion S; subst.
        * apply PF. exact I.
        * assert (K : at_boundary exists_in (d :: s) = false) by (apply boundary_iff; auto). congruence.
      + assert (B' := B). rewrite boundary_iff in B'.
        assert (UP : forall g, searched exists_in s g -> searched exists_in (d :: s) g) by (intros; constructor; auto).
        assert (DOWN : forall g, searched exists_in (d :: s) g -> g = d :: s \/ searched exists_in s g)
          by (intros g S; inversion S; subst; auto).
        assert (LIFT : forall f n, first_hit candidate exists_in s f n -> first_hit candidate exists_in (d :: s) f n).
        { intros f n [F1 [F2 [F3 F4]]]. repeat split; auto.
          intros g S L x I. destruct (DOWN g S) as [->|S']; [apply PF; exact I | apply F4; auto]. }
        destruct (detect_config_file candidate exists_in s) as [[[f n]|]|e].
        * destruct IH as [I1 I2]. auto.
        * intros g x S I. destruct (DOWN g S) as [->|S']; [apply PF; exact I | apply IH; auto].
        * destruct IH as [I0 [f [n [I1 I2]]]]. split; auto. exists f, n. auto.
    - destruct PF as [P0 [n [P1 [a [b [P2 P3]]]]]]. split; auto. exists (d :: s), n. split; auto. repeat split.
      + constructor.
      + right. auto.
      + exists a, b. split; auto.
      + intros g S L. apply searched_length in S. lia.
  Qed.

  Lemma app_first_unique : forall {A} (P : A -> Prop) l a n b a' n' b',
    l = a ++ n :: b -> l = a' ++ n' :: b' -> P n -> P n' ->
    (forall x, In x a -> ~ P x) -> (forall x, In x a' -> ~ P x) -> n = n'.
  Proof.
    intros A P l a. revert l. induction a as [|x a IH]; intros l n b a' n' b' E1 E2 P1 P2 H1 H2.
    - destruct a' as [|y a']; simpl in *; subst; [congruence|]. injection E2 as <- E.
      exfalso. apply (H2 n); auto.
    - destruct a' as [|y a']; simpl in *; subst.
      + injection E2 as -> E. exfalso. apply (H1 n'); auto.
      + injection E2 as -> E. eapply (IH _ n b a' n' b' eq_refl); eauto.
  Qed.

  Lemma searched_suffix_eq : forall s g h, searched exists_in s g -> searched exists_in s h ->
    List.length g = List.length h -> g = h.
  Proof.
    intros s g h H. revert h. induction H as [f|d f g B H IH]; intros h S L.
    - inversion S; subst; auto. apply searched_length in H0. simpl in L. lia.
    - inversion S; subst.
      + apply searched_length in H. simpl in L. lia.
      + auto.
  Qed.

  Lemma first_hit_unique : forall s f n f' n', first_hit candidate exists_in s f n ->
    first_hit candidate exists_in s f' n' -> f = f' /\ n = n'.
  Proof.
    intros s f n f' n' [A1 [A2 [[a [b [A3 A4]]] A5]]] [B1 [B2 [[a' [b' [B3 B4]]] B5]]].
    assert (I : In n names) by (rewrite A3; apply in_or_app; right; left; auto).
    assert (I' : In n' names) by (rewrite B3; apply in_or_app; right; left; auto).
    assert (f = f').
    { destruct (Nat.lt_trichotomy (List.length f) (List.length f')) as [L|[L|L]].
      - exfalso. apply (A5 f' B1 L n' I' B2).
      - eapply searched_suffix_eq; eauto.
      - exfalso. apply (B5 f A1 L n I A2). }
    subst. split; auto.
    eapply (app_first_unique (fun x => stops (candidate f' x))); eauto.
  Qed.

  Lemma detect_iff : forall s,
    (forall f n, detect_config_file candidate exists_in s = Ok (Some (f, n)) <->
       first_hit candidate exists_in s f n /\ candidate f n = PrSection) /\
    (detect_config_file candidate exists_in s = Err ConfigError <->
       exists f n, first_hit candidate exists_in s f n /\ candidate f n = PrOtherError) /\
    (detect_config_file candidate exists_in s = Ok None <->
       forall g x, searched exists_in s g -> In x names -> ~ stops (candidate g x)).
  Proof.
    intros s. assert (D := detect_spec s).
    assert (HIT : forall f n, first_hit candidate exists_in s f n -> searched exists_in s f /\ In n names /\ stops (candidate f n)).
    { intros f n [F1 [F2 [[a [b [F3 _]]] _]]]. repeat split; auto. rewrite F3. apply in_or_app. right. left. auto. }
    destruct (detect_config_file candidate exists_in s) as [[[f n]|]|e].
    - destruct D as [D1 D2]. split; [|split].
      + intros f' n'. split.
        * intros H. injection H as <- <-. auto.
        * intros [H1 H2]. destruct (first_hit_unique _ _ _ _ _ D1 H1) as [-> ->]. auto.
      + split; [discriminate|]. intros [f' [n' [H1 H2]]].
        destruct (first_hit_unique _ _ _ _ _ D1 H1) as [-> ->]. congruence.
      + split; [discriminate|]. intros H. destruct (HIT _ _ D1) as [H1 [H2 H3]]. exfalso. eapply H; eauto.
    - split; [|split].
      + intros f n. split; [discriminate|]. intros [H1 _]. destruct (HIT _ _ H1) as [K1 [K2 K3]]. exfalso. eapply D; eauto.
      + split; [discriminate|]. intros [f [n [H1 _]]]. destruct (HIT _ _ H1) as [K1 [K2 K3]]. exfalso. eapply D; eauto.
      + tauto.
    - destruct D as [-> [f [n [D1 D2]]]]. split; [|split].
      + intros f' n'. split; [discriminate|]. intros [H1 H2].
        destruct (first_hit_unique _ _ _ _ _ D1 H1) as [-> ->]. congruence.
      + split; auto. intros _. eauto.
      + split; [discriminate|]. intros H. destruct (HIT _ _ D1) as [H1 [H2 H3]]. exfalso. eapply H; eauto.
  Qed.
End Detect.

(** Only the searched folders matter. *)
Lemma detect_local : forall cand cand' ex ex' s,
  (forall g x, searched ex s g -> cand g x = cand' g x) ->
  (forall g x, searched ex s g -> ex g x = ex' g x) ->
  detect_config_file cand ex s = detect_config_file cand' ex' s.
Proof.
  intros cand cand' ex ex' s. induction s as [|d s IH]; intros C E; cbn [detect_config_file].
  - assert (P : forall l, probe_folder cand [] l = probe_folder cand' [] l).
    { induction l as [|n l IHl]; cbn [probe_folder]; auto. rewrite <- (C [] n) by constructor. rewrite IHl. auto. }
    rewrite P. assert (B : at_boundary ex [] = at_boundary ex' []).
    { unfold at_boundary. apply existsb_ext_in'. intros x. apply E. constructor. }
    rewrite B. auto.
  - assert (P : forall l, probe_folder cand (d :: s) l = probe_folder cand' (d :: s) l).
    { induction l as [|n l IHl]; cbn [probe_folder]; auto. rewrite <- (C (d :: s) n) by constructor. rewrite IHl. auto. }
    rewrite P. assert (B : at_boundary ex (d :: s) = at_boundary ex' (d :: s)).
    { unfold at_boundary. apply existsb_ext_in'. intros x. apply E. constructor. }
    rewrite <- B. destruct (at_boundary ex (d :: s)) eqn:BB; auto.
    assert (B' := BB). rewrite boundary_iff in B'.
    rewrite IH; auto; intros g x S; [apply C | apply E]; constructor; auto.
Qed.
