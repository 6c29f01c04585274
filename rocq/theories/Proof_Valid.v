(** C74: what config files and command lines make of a configuration. *)
From Verif Require Import PyBase PyLemmas Utility RulesData Rules Config Formats Paths Arguments
  Spec_Base Spec_Utility Proof_Utility Spec_Config Proof_Config Spec_Valid.

Section Valid.
  Variable cpus : Z.
  Variable re_ok : string -> bool.
  Hypothesis C : 0 < cpus.

  Ltac kept := intros V; destruct V; constructor; assumption.
  Lemma v_exclusion x c : valid re_ok c -> valid re_ok (add_exclusion x c).
  Proof using. intros []. constructor; try assumption. cbn. apply set_add_NoDup. assumption. Qed.
  Lemma v_regex x c c' : valid re_ok c -> add_exclusion_regex re_ok x c = Ok c' -> valid re_ok c'.
  Proof using.
    intros [] H. unfold add_exclusion_regex in H. destruct (re_ok x) eqn:R; [|discriminate]. injection H as <-. constructor; try assumption.
    cbn [c_exclusion_regex_set w_exclusion_regex_set]. destruct va_regex as [N F]. split; [apply set_add_NoDup; assumption|]. rewrite Forall_forall in *. intros y I. apply set_add_In in I as [->|I]; auto.
  Qed.
  Lemma v_backport x c c' : valid re_ok c -> add_backport x c = (c', true) -> valid re_ok c'.
  Proof using.
    intros [] H. unfold add_backport in H. destruct (is_backport x) eqn:R; [|discriminate]. injection H as <-. constructor; try assumption.
    cbn [c_backports w_backports]. destruct va_backports as [N F]. split; [apply set_add_NoDup; assumption|]. intros y I. apply set_add_In in I as [->|I]; auto. apply is_backport_iff. exact R.
  Qed.
  Lemma v_feature x c c' : valid re_ok c -> enable_feature x c = (c', true) -> valid re_ok c'.
  Proof using.
    intros [] H. unfold enable_feature in H. destruct (is_feature x) eqn:R; [|discriminate]. injection H as <-. constructor; try assumption.
    cbn [c_features w_features]. destruct va_features as [N F]. split; [apply set_add_NoDup; assumption|]. intros y I. apply set_add_In in I as [->|I]; auto. apply is_feature_iff. exact R.
  Qed.
  Lemma v_target x c c' : valid re_ok c -> add_target (TStr x) c = (c', RTrue) -> valid re_ok c'.
  Proof using.
    intros [] H. unfold add_target in H. destruct (Nat.eqb_spec (List.length (c_targets c)) 2) as [|L]; [discriminate|].
    destruct (parse_target x) as [t|] eqn:R; [|discriminate]. injection H as <-. constructor; try assumption.
    cbn [c_targets w_targets]. destruct va_targets as [S F]. split; [apply isort2_sorted; assumption|]. rewrite Forall_forall in *.
    intros y I. apply isort_In in I. apply in_app_iff in I as [I|[<-|[]]]; auto. apply parse_target_iff in R. apply R.
  Qed.
  Lemma v_processes n c : valid re_ok c -> valid re_ok (set_processes cpus n c).
  Proof using C. intros []. constructor; try assumption. cbn. destruct (Z.ltb_spec 0 n); assumption. Qed.
  Lemma v_format f c : valid re_ok c -> valid re_ok (set_format f c).
  Proof using. destruct f; cbn; kept. Qed.
  Lemma v_file content c : valid re_ok c -> valid re_ok (add_exclusion_file content c).
  Proof using.
    destruct content as [l|]; [|auto]. cbn [add_exclusion_file]. revert c. induction l as [|x l IH]; intros c V; [exact V|]. apply IH, v_exclusion, V.
  Qed.
  Lemma v_default : valid re_ok (default_config cpus).
  Proof using C. constructor; cbn; auto; try (split; [constructor|]; auto; intros b []); try constructor. Qed.
  Lemma v_override o c : valid re_ok o -> valid re_ok (override_from o c).
  Proof using.
    intros []. unfold override_from. apply v_format. constructor; try assumption; cbn.
    - apply dedup_NoDup.
    - split; [apply dedup_NoDup|]. destruct va_regex as [_ F]. rewrite Forall_forall in *. intros y I. rewrite dedup_In in I.
      apply F. unfold exclusion_regex in I. rewrite isort_In in I. exact I.
  Qed.

  Lemma v_fold (f : config -> string -> res config) : (forall x c c', valid re_ok c -> f c x = Ok c' -> valid re_ok c') ->
    forall l c c', valid re_ok c -> fold_res f l c = Ok c' -> valid re_ok c'.
  Proof using.
    intros F. induction l as [|x l IH]; intros c c' V H; cbn [fold_res] in H; [injection H as <-; exact V|].
    destruct (f c x) as [c1|] eqn:E; [|discriminate]. cbn [bindr] in H. eapply IH; [eapply F; eassumption|exact H].
  Qed.
  Lemma v_folds (f : config -> string -> config) : (forall x c, valid re_ok c -> valid re_ok (f c x)) ->
    forall l c, valid re_ok c -> valid re_ok (fold_left f l c).
  Proof using. intros F. induction l as [|x l IH]; intros c V; cbn; auto. Qed.

  Lemma v_section sec c : parse_section cpus re_ok sec = Ok c -> valid re_ok c.
  Proof using C.
    unfold parse_section. cbv zeta. intros H.
    assert (V := v_default). revert H. revert V. generalize (default_config cpus). intros c0 V H.
    Ltac step H sec := lazymatch type of H with
    | bindr (getbool sec ?o) _ = _ => let b := fresh "b" in destruct (getbool sec o) as [b|]; [cbn [bindr] in H|discriminate H]
    | bindr (getuint sec ?o) _ = _ => let b := fresh "n" in destruct (getuint sec o) as [b|]; [cbn [bindr] in H|discriminate H]
    | bindr (getstringlist sec ?o) _ = _ => let b := fresh "l" in destruct (getstringlist sec o) as [b|]; [cbn [bindr] in H|discriminate H]
    end.
    Ltac flagged V := match goal with |- valid _ (?f ?x) => destruct V; constructor; assumption end.
    step H sec. assert (V1 : valid re_ok (w_quiet b c0)) by flagged V. clear V. set (c1 := w_quiet b c0) in *. clearbody c1.
    step H sec. assert (V : valid re_ok (w_verbose n c1)) by flagged V1. set (c2 := w_verbose n c1) in *. clearbody c2.
    step H sec. assert (V2 : valid re_ok (w_print_visits b0 c2)) by flagged V. set (c3 := w_print_visits b0 c2) in *. clearbody c3.
    step H sec. assert (V3 := v_processes n0 _ V2). set (c4 := set_processes cpus n0 c3) in *. clearbody c4. clear V V1 V2.
    do 10 step H sec.
    match type of H with bindr (fold_res ?f ?l (fold_left ?g ?m ?x)) _ = _ => assert (V5 : valid re_ok (fold_left g m x)) by
      (apply v_folds; [intros; apply v_exclusion; assumption|]; destruct V3; constructor; assumption); set (c5 := fold_left g m x) in *; clearbody c5 end.
    match type of H with bindr ?x _ = _ => destruct x as [c6|] eqn:E1; [cbn [bindr] in H|discriminate H] end.
    assert (V6 : valid re_ok c6) by (refine (v_fold _ _ _ _ _ V5 E1); intros x d d' Vd K; eapply v_regex; eassumption).
    do 2 step H sec.
    match type of H with bindr ?x _ = _ => destruct x as [c7|] eqn:E2; [cbn [bindr] in H|discriminate H] end.
    assert (V7 : valid re_ok c7).
    { refine (v_fold _ _ _ _ _ _ E2); [|flagged V6].
      intros x d d' Vd K. destruct (add_backport x d) as [e []] eqn:Q; [|discriminate K]. injection K as <-. eapply v_backport; eassumption. }
    step H sec.
    match type of H with bindr ?x _ = _ => destruct x as [c8|] eqn:E3; [cbn [bindr] in H|discriminate H] end.
    assert (V8 : valid re_ok c8).
    { refine (v_fold _ _ _ _ _ V7 E3).
      intros x d d' Vd K. destruct (enable_feature x d) as [e []] eqn:Q; [|discriminate K]. injection K as <-. eapply v_feature; eassumption. }
    step H sec.
    match type of H with bindr ?x _ = _ => destruct x as [c9|] eqn:E4; [cbn [bindr] in H|discriminate H] end.
    assert (V9 : valid re_ok c9).
    { refine (v_fold _ _ _ _ _ V8 E4).
      intros x d d' Vd K. destruct (add_target (TStr x) d) as [e []] eqn:Q; try discriminate K. injection K as <-. eapply v_target; eassumption. }
    destruct (sec_get sec "format") as [[v|]|]; try discriminate H. destruct (from_name _); [|discriminate H]. injection H as <-. apply v_format. exact V9.
  Qed.
  Lemma file_valid f c : parse_file cpus re_ok f = Some c -> valid re_ok c.
  Proof using C.
    destruct f; cbn [parse_file]; try discriminate. destruct (parse_section cpus re_ok s) as [d|] eqn:E; [|discriminate].
    intros H. injection H as <-. eapply v_section; eassumption.
  Qed.

  Lemma v_flag a f c : flag_effect a = Some f -> valid re_ok c -> valid re_ok (f c).
  Proof using.
    unfold flag_effect. intros H [].
    repeat match type of H with (if ?b then _ else _) = _ => destruct b; [injection H as <-; constructor; try assumption; solve [constructor | split; [constructor|intros ? []] | split; constructor]|] end.
    discriminate H.
  Qed.

  Variable ef : string -> option (list string).
  Definition good (s : step) : Prop := match s with SGo p => valid re_ok (p_config p) | _ => True end.
  Lemma v_arg a next s : valid re_ok (p_config s) -> good (parse_arg cpus re_ok ef a next s).
  Proof using C.
    intros V. unfold parse_arg. destruct (mem a _); [exact V|]. destruct (flag_effect a) as [f|] eqn:E; [exact (v_flag _ _ _ E V)|].
    destruct (_ || _).
    { destruct (add_target _ _) as [c r] eqn:Q. destruct r; try exact I. eapply v_target; eassumption. }
    destruct (_ || _).
    { destruct (py_int _) as [n|]; [|exact I]. destruct (n <=? 0); [exact I|]. apply v_processes. exact V. }
    destruct (String.eqb _ _); [exact V|]. destruct (mem a _).
    { destruct next as [n|]; [|exact I]. destruct (from_name _); [exact V|exact I]. }
    destruct (String.eqb _ _); [destruct next as [n|]; [apply v_exclusion; exact V|exact I]|].
    destruct (String.eqb _ _); [destruct next as [n|]; [apply v_file; exact V|exact I]|].
    destruct (String.eqb _ _).
    { destruct next as [n|]; [|exact I]. destruct (add_exclusion_regex _ _ _) as [c|] eqn:Q; [|exact I]. eapply v_regex; eassumption. }
    destruct (String.eqb _ _).
    { destruct next as [n|]; [|exact I]. destruct (add_backport _ _) as [c []] eqn:Q; [|exact I]. eapply v_backport; eassumption. }
    destruct (String.eqb _ _).
    { destruct next as [n|]; [|exact I]. destruct (enable_feature _ _) as [c []] eqn:Q; [|exact I]. eapply v_feature; eassumption. }
    exact V.
  Qed.
  Lemma v_loop args : forall s, valid re_ok (p_config s) -> good (parse_loop cpus re_ok ef args s).
  Proof using C.
    induction args as [|a r IH]; intros s V; [exact V|]. cbn [parse_loop]. assert (G := v_arg a (hd_error r) s V).
    destruct (parse_arg _ _ _ _ _ s); try exact I. apply IH, G.
  Qed.

  Lemma v_finish args note s : valid re_ok (p_config s) -> valid re_ok (fst (finish args note s)).
  Proof using.
    intros V. unfold finish. assert (V' : valid re_ok (match p_fmt s with Some f => set_format f (p_config s) | None => p_config s end))
      by (destruct (p_fmt s); [apply v_format|]; exact V).
    set (c := match p_fmt s with Some f => _ | None => _ end) in *. cbv zeta.
    destruct (_ && _); [exact V'|]. assert (W : valid re_ok (if c_only_show_violations c && (c_verbose c <? 2) then w_verbose 2 c else c)).
    { destruct (_ && _); [|exact V']. destruct V'. constructor; assumption. }
    destruct (_ && _) in |- *; exact W.
  Qed.
  Lemma finish_settled args note s c ps v pr : finish args note s = (c, OPaths ps v pr) -> settled c.
  Proof using.
    unfold finish. set (d := match p_fmt s with Some f => _ | None => _ end) in *. cbv zeta.
    destruct (c_only_show_violations d && (List.length (c_targets d) =? 0)%nat) eqn:E1; [discriminate|].
    destruct (c_only_show_violations d && (c_verbose d <? 2)) eqn:E2;
    match goal with |- context [if ?b then _ else _] => destruct b eqn:E3; [discriminate|] end; intros H; injection H as <- _ _ _; unfold settled.
    - apply andb_true_iff in E2 as [E2 _]. rewrite E2 in *. cbn [andb] in E1. cbn. rewrite E2. split; [|discriminate]. intros _. split; [|lia].
      intros K. rewrite K in E1. discriminate.
    - split.
      + intros K. rewrite K in *. cbn [andb] in E1, E2. apply Z.ltb_ge in E2. split; [|exact E2]. intros K'. rewrite K' in E1. discriminate.
      + intros Q V. rewrite Q, V in E3. cbn [andb negb] in E3. rewrite andb_true_r in E3. apply Z.ltb_ge in E3. exact E3.
  Qed.

  Variable cwd : string.
  Variable cfg : string -> cfg_file.
  Lemma parse_valid det args c c' out : parse cpus re_ok ef cwd cfg det args c = Ok (c', out) -> valid re_ok c -> valid re_ok c'.
  Proof using C.
    intros H V. unfold parse in H. destruct args as [|a r]; [injection H as <- _; exact V|]. destruct det as [det|]; [|discriminate].
    destruct (preparse _ _ _ _) as [| | |nc ac]; try discriminate H; try (injection H as <- _; exact V). cbv zeta in H.
    assert (F : forall c0 note x, match parse_loop cpus re_ok ef (a :: r) (mkP c0 0 false None) with
      | SGo s => Ok (finish (a :: r) note s) | SFail => Ok (c0, OCode 1) | SRaise e => Err e end = Ok (c', x) -> valid re_ok c0 -> valid re_ok c').
    { intros c0 note x K V0. assert (G := v_loop (a :: r) (mkP c0 0 false None) V0). destruct (parse_loop _ _ _ _ _) as [s| |e]; [|injection K as <- _; exact V0|discriminate K].
      assert (W := v_finish (a :: r) note s G). injection K as K. rewrite K in W. exact W. }
    destruct nc, ac as [f|], det as [g|]; try (injection H as <- _; exact V).
    all: repeat match type of H with
    | context [parse_file cpus re_ok ?x] => let E := fresh in destruct (parse_file cpus re_ok x) eqn:E; [apply file_valid in E|injection H as <- _; exact V]
    end.
    all: eapply F; [exact H|]. all: try exact V; apply v_override; assumption.
  Qed.
  Lemma parse_settled det args c c' ps v pr : parse cpus re_ok ef cwd cfg det args c = Ok (c', OPaths ps v pr) -> settled c'.
  Proof using.
    intros H. unfold parse in H. destruct args as [|x args]; [discriminate|]. destruct det as [det|]; [|discriminate].
    destruct (preparse _ _ _ _) as [| | |nc ac]; try discriminate. cbv zeta in H.
    repeat match type of H with
    | Ok (finish _ _ _) = _ => injection H as H; eapply finish_settled; exact H
    | context [match ?x with _ => _ end] => destruct x; try discriminate
    end.
  Qed.

  (** *** Verbosity *)
  Definition loud (c : config) : Prop := 0 <= c_verbose c.
  Lemma l_fold (f : config -> string -> res config) : (forall x c c', f c x = Ok c' -> c_verbose c' = c_verbose c) ->
    forall l c c', fold_res f l c = Ok c' -> c_verbose c' = c_verbose c.
  Proof using.
    intros F. induction l as [|x l IH]; intros c c' H; cbn [fold_res] in H; [injection H as <-; reflexivity|].
    destruct (f c x) as [c1|] eqn:E; [|discriminate]. cbn [bindr] in H. rewrite (IH _ _ H). eapply F; eassumption.
  Qed.
  Lemma l_folds l : forall c, c_verbose (fold_left (fun c x => add_exclusion x c) l c) = c_verbose c.
  Proof using. induction l as [|x l IH]; intros c; cbn [fold_left]; [reflexivity|]. rewrite IH. reflexivity. Qed.
  Lemma l_file content c : c_verbose (add_exclusion_file content c) = c_verbose c.
  Proof using. destruct content as [l|]; [|reflexivity]. cbn [add_exclusion_file]. revert c. induction l as [|x l IH]; intros c; cbn [fold_left]; [reflexivity|]. rewrite IH. reflexivity. Qed.
  Lemma l_format f c : loud c -> loud (set_format f c).
  Proof using. unfold loud. destruct f; cbn; lia. Qed.
  Lemma l_regex x c c' : add_exclusion_regex re_ok x c = Ok c' -> c_verbose c' = c_verbose c.
  Proof using. unfold add_exclusion_regex. destruct (re_ok x); [|discriminate]. intros H. injection H as <-. reflexivity. Qed.
  Lemma l_backport x c c' b : add_backport x c = (c', b) -> c_verbose c' = c_verbose c.
  Proof using. unfold add_backport. destruct (is_backport x); intros H; injection H as <- _; reflexivity. Qed.
  Lemma l_feature x c c' b : enable_feature x c = (c', b) -> c_verbose c' = c_verbose c.
  Proof using. unfold enable_feature. destruct (is_feature x); intros H; injection H as <- _; reflexivity. Qed.
  Lemma l_target x c c' b : add_target x c = (c', b) -> c_verbose c' = c_verbose c.
  Proof using. unfold add_target. destruct (_ =? _)%nat; [|destruct x; [destruct (parse_target _)| | |]]; intros H; injection H as <- _; reflexivity. Qed.

  Lemma getuint_loud sec n : calm sec -> getuint sec "verbose" = Ok n -> 0 <= n.
  Proof using.
    intros K. unfold getuint. destruct (sec_get sec "verbose") as [[v|]|]; try discriminate. destruct (String.eqb v "").
    - destruct (sec_default sec "verbose") as [d|] eqn:D; [|discriminate]. destruct (py_int d) as [m|] eqn:P; [|discriminate]. intros H. injection H as <-. eapply K; eauto.
    - destruct (py_int v) as [m|]; [|discriminate]. destruct (Z.ltb_spec m 0); [discriminate|]. intros H'. injection H' as <-. assumption.
  Qed.
  Lemma l_section sec c : calm sec -> parse_section cpus re_ok sec = Ok c -> loud c.
  Proof using.
    intros K H. unfold parse_section in H. cbv zeta in H. generalize dependent (default_config cpus). intros c0 H.
    step H sec. destruct (getuint sec "verbose") as [n|] eqn:G; [cbn [bindr] in H|discriminate H]. apply (getuint_loud sec n K) in G.
    do 12 step H sec.
    match type of H with bindr ?x _ = _ => destruct x as [c6|] eqn:E1; [cbn [bindr] in H|discriminate H] end.
    apply l_fold in E1; [|intros x d d' Q; exact (l_regex _ _ _ Q)]. rewrite l_folds in E1. cbn [c_verbose w_scan_symlink_folders w_parse_comments w_only_show_violations
      w_eval_annotations w_analyze_hidden w_show_tips w_pessimistic w_ignore_incomp set_processes w_processes w_print_visits w_verbose] in E1.
    do 2 step H sec.
    match type of H with bindr ?x _ = _ => destruct x as [c7|] eqn:E2; [cbn [bindr] in H|discriminate H] end.
    apply l_fold in E2; [|intros x d d' Q; destruct (add_backport x d) as [e []] eqn:B; [|discriminate Q]; injection Q as <-; exact (l_backport _ _ _ _ B)].
    cbn [c_verbose w_make_paths_absolute] in E2. step H sec.
    match type of H with bindr ?x _ = _ => destruct x as [c8|] eqn:E3; [cbn [bindr] in H|discriminate H] end.
    apply l_fold in E3; [|intros x d d' Q; destruct (enable_feature x d) as [e []] eqn:B; [|discriminate Q]; injection Q as <-; exact (l_feature _ _ _ _ B)].
    step H sec.
    match type of H with bindr ?x _ = _ => destruct x as [c9|] eqn:E4; [cbn [bindr] in H|discriminate H] end.
    apply l_fold in E4; [|intros x d d' Q; destruct (add_target (TStr x) d) as [e []] eqn:B; try discriminate Q; injection Q as <-; exact (l_target _ _ _ _ B)].
    destruct (sec_get sec "format") as [[v|]|]; try discriminate H. destruct (from_name _); [|discriminate H]. injection H as <-. apply l_format. unfold loud. congruence.
  Qed.

  Lemma count_pos x s : 0 <= count_char x s.
  Proof using. induction s as [|y s IH]; cbn [count_char]; [lia|]. destruct (Ascii.eqb x y); lia. Qed.
  Lemma l_flag a f c : flag_effect a = Some f -> loud c -> loud (f c).
  Proof using.
    unfold flag_effect, loud. intros H L.
    repeat match type of H with (if ?b then _ else _) = _ => destruct b; [injection H as <-; first [exact L | apply count_pos]|] end.
    discriminate H.
  Qed.
  Definition good_loud (s : step) : Prop := match s with SGo p => loud (p_config p) | _ => True end.
  Lemma l_arg a next s : loud (p_config s) -> good_loud (parse_arg cpus re_ok ef a next s).
  Proof using.
    intros V. unfold parse_arg. destruct (mem a _); [exact V|]. destruct (flag_effect a) as [f|] eqn:E; [exact (l_flag _ _ _ E V)|].
    destruct (_ || _).
    { destruct (add_target _ _) as [c r] eqn:Q. apply l_target in Q. destruct r; try exact I. unfold good_loud, adv, loud in *. cbn [p_config]. congruence. }
    destruct (_ || _).
    { destruct (py_int _) as [n|]; [|exact I]. destruct (n <=? 0); [exact I|]. exact V. }
    destruct (String.eqb _ _); [exact V|]. destruct (mem a _).
    { destruct next as [n|]; [|exact I]. destruct (from_name _); [exact V|exact I]. }
    destruct (String.eqb _ _); [destruct next as [n|]; [exact V|exact I]|].
    destruct (String.eqb _ _); [destruct next as [n|]; [unfold good_loud, adv, loud; cbn [p_config]; rewrite l_file; exact V|exact I]|].
    destruct (String.eqb _ _).
    { destruct next as [n|]; [|exact I]. destruct (add_exclusion_regex _ _ _) as [c|] eqn:Q; [|exact I]. apply l_regex in Q. unfold good_loud, adv, loud in *. cbn [p_config]. congruence. }
    destruct (String.eqb _ _).
    { destruct next as [n|]; [|exact I]. destruct (add_backport _ _) as [c []] eqn:Q; [|exact I]. apply l_backport in Q. unfold good_loud, adv, loud in *. cbn [p_config]. congruence. }
    destruct (String.eqb _ _).
    { destruct next as [n|]; [|exact I]. destruct (enable_feature _ _) as [c []] eqn:Q; [|exact I]. apply l_feature in Q. unfold good_loud, adv, loud in *. cbn [p_config]. congruence. }
    exact V.
  Qed.
  Lemma l_loop args : forall s, loud (p_config s) -> good_loud (parse_loop cpus re_ok ef args s).
  Proof using.
    induction args as [|a r IH]; intros s V; [exact V|]. cbn [parse_loop]. assert (G := l_arg a (hd_error r) s V).
    destruct (parse_arg _ _ _ _ _ s); try exact I. apply IH, G.
  Qed.
  Lemma l_finish args note s : loud (p_config s) -> loud (fst (finish args note s)).
  Proof using.
    intros V. unfold finish. assert (V' : loud (match p_fmt s with Some f => set_format f (p_config s) | None => p_config s end))
      by (destruct (p_fmt s); [apply l_format|]; exact V).
    set (c := match p_fmt s with Some f => _ | None => _ end) in *. cbv zeta.
    destruct (_ && _); [exact V'|]. assert (W : loud (if c_only_show_violations c && (c_verbose c <? 2) then w_verbose 2 c else c)).
    { destruct (_ && _); [|exact V']. unfold loud. cbn. lia. }
    destruct (_ && _) in |- *; exact W.
  Qed.
  Lemma parse_loud det args c c' out : (forall f s, cfg f = CfgSection s -> calm s) ->
    parse cpus re_ok ef cwd cfg det args c = Ok (c', out) -> loud c -> loud c'.
  Proof using.
    intros Cm H V. unfold parse in H. destruct args as [|a r]; [injection H as <- _; exact V|]. destruct det as [det|]; [|discriminate].
    destruct (preparse _ _ _ _) as [| | |nc ac]; try discriminate H; try (injection H as <- _; exact V). cbv zeta in H.
    assert (Fl : forall f d, parse_file cpus re_ok (cfg f) = Some d -> loud d).
    { intros f d. specialize (Cm f). destruct (cfg f); cbn [parse_file]; try discriminate. destruct (parse_section cpus re_ok s) as [e|] eqn:E; [|discriminate].
      intros Q. injection Q as <-. eapply l_section; eauto. }
    assert (F : forall c0 note x, match parse_loop cpus re_ok ef (a :: r) (mkP c0 0 false None) with
      | SGo s => Ok (finish (a :: r) note s) | SFail => Ok (c0, OCode 1) | SRaise e => Err e end = Ok (c', x) -> loud c0 -> loud c').
    { intros c0 note x K V0. assert (G := l_loop (a :: r) (mkP c0 0 false None) V0). destruct (parse_loop _ _ _ _ _) as [s| |e]; [|injection K as <- _; exact V0|discriminate K].
      assert (W := l_finish (a :: r) note s G). injection K as K. rewrite K in W. exact W. }
    assert (Ov : forall d, loud d -> loud (override_from d c)) by (intros d L; unfold override_from; apply l_format; exact L).
    destruct nc, ac as [f|], det as [g|]; try (injection H as <- _; exact V).
    all: repeat match type of H with
    | context [parse_file cpus re_ok ?x] => let E := fresh in destruct (parse_file cpus re_ok x) eqn:E; [apply Fl in E|injection H as <- _; exact V]
    end.
    all: eapply F; [exact H|]. all: try exact V; apply Ov; assumption.
  Qed.
End Valid.
