(** Settings on which files to look at. Lemmas for C89. *)
From Verif Require Import PyBase PyLemmas Utility RulesData Rules Config Formats Paths Pool Detection AstKinds Ast State Visitor MinVersions Parser
  Arguments Processor Main Spec_Base Spec_Detection Spec_Visitor Spec_Constructs Spec_Selection Proof_Strings Proof_Parser Proof_Detection Proof_Given
  Proof_Constructs Proof_Constructs_Runs.

Section Further.
  Variables (w : world) (c c' : config) (paths : list string).
  Hypothesis Far : looks_further c c'.
  Notation fs := (w_fs w).
  Notation cwd := (w_cwd w).
  Notation search := (w_search w).
  Notation ign := (ignore_chars_of c).

  Lemma rest_absolute : c_make_paths_absolute c' = c_make_paths_absolute c.
  Proof. rewrite (lf_rest _ _ Far). reflexivity. Qed.
  Lemma rest_actual p : actual cwd c' p = actual cwd c p.
  Proof. unfold actual. rewrite rest_absolute. reflexivity. Qed.
  Lemma rest_inputs : input_paths w c' paths = input_paths w c paths.
  Proof. unfold input_paths. rewrite rest_absolute. reflexivity. Qed.
  Lemma rest_ignored : ignore_chars_of c' = ign.
  Proof. rewrite (lf_rest _ _ Far). reflexivity. Qed.
  Lemma rest_apart : apart c c'.
  Proof. destruct Far as [R _ _ _]. destruct c, c'. unfold apart. cbn in *. injection R. intros. subst. reflexivity. Qed.

  Lemma left_further p : not_left_out search c ign p -> not_left_out search c' (ignore_chars_of c') p.
  Proof. rewrite rest_ignored. intros [A B]. split; [exact A|]. intros r I. apply B, (lf_patterns _ _ Far), I. Qed.
  Lemma shown_further p : shown (c_analyze_hidden c) p -> shown (c_analyze_hidden c') p.
  Proof. intros [H|H]; [left; apply (lf_hidden _ _ Far), H|right; exact H]. Qed.
  Lemma looks_further_at d p : looks w c paths d p -> looks w c' paths d p.
  Proof.
    unfold looks. rewrite rest_inputs. induction 1 as [p I|d p names n L IH N S F E I Hd]; [apply LGiven, I|].
    rewrite <- (rest_actual p) in *. eapply LEntry; [exact IH|apply left_further, N|apply shown_further, S| |exact E|exact I|].
    - destruct F as [F|(F1 & F2)]; [left; exact F|right; split; [|exact F2]]. destruct d; [reflexivity|]. apply (lf_links _ _ Far), F1.
    - destruct Hd as [Hd|Hd]; [left; apply (lf_hidden _ _ Far), Hd|right; exact Hd].
  Qed.
  Lemma finds_further q : finds w c paths q -> finds w c' paths q.
  Proof.
    intros (d & p & L & N & S & E & R). exists d, p. split; [apply looks_further_at, L|]. split; [apply left_further, N|].
    split; [apply shown_further, S|]. rewrite rest_actual. auto.
  Qed.

  Definition barred (d : nat) (p : string) : Prop := looks w c' paths d p /\ kept_from fs cwd search c d p.

  Lemma begins_dec t p : begins t p \/ ~ begins t p.
  Proof. destruct (startswith t p) eqn:E; [left; apply startswith_iff, E|right; intros B; apply startswith_iff in B; unfold begins in *; congruence]. Qed.
  Lemma left_or d p : not_left_out search c' (ignore_chars_of c') p -> not_left_out search c ign p \/ kept_from fs cwd search c d p.
  Proof.
    rewrite rest_ignored. intros [A _]. destruct (existsb (fun r => search r p) (c_exclusion_regex_set c)) eqn:X.
    - right. apply existsb_exists in X as (r & I & Y). eapply kf_pattern; eauto.
    - left. split; [exact A|]. intros r I. destruct (search r p) eqn:Y; [|reflexivity].
      assert (Z : existsb (fun r => search r p) (c_exclusion_regex_set c) = true) by (apply existsb_exists; exists r; auto). congruence.
  Qed.
  Lemma shown_or d p : shown (c_analyze_hidden c') p -> shown (c_analyze_hidden c) p \/ kept_from fs cwd search c d p.
  Proof.
    intros _. destruct (c_analyze_hidden c) eqn:H; [left; left; reflexivity|].
    destruct (String.eqb p ".") eqn:D; [left; right; left; apply String.eqb_eq, D|]. apply String.eqb_neq in D.
    destruct (begins_dec "." p) as [B|B]; [right; apply kf_dot; assumption|left; right; right; exact B].
  Qed.
  Lemma folder_or d p : is_folder fs (match d with O => true | _ => c_scan_symlink_folders c' end) (actual cwd c p) ->
    is_folder fs (match d with O => true | _ => c_scan_symlink_folders c end) (actual cwd c p) \/ kept_from fs cwd search c d p.
  Proof.
    intros [F|(F1 & F2 & F3)]; [left; left; exact F|]. destruct d as [|d]; [left; right; auto|].
    destruct (c_scan_symlink_folders c) eqn:L; [left; right; auto|]. right. apply kf_link; assumption.
  Qed.

  (** What is come to only with the further settings is at or below something the others keep from. *)
  Lemma looks_or d p : looks w c' paths d p ->
    looks w c paths d p \/ exists d0 p0, barred d0 p0 /\ leads_to fs cwd c p0 p.
  Proof.
    intros L. assert (L0 := L). unfold looks in L. rewrite rest_inputs in L.
    induction L as [p I|d p names n L IH N S F E I Hd]; [left; apply LGiven, I|].
    assert (Lp : looks w c' paths d p) by (unfold looks; rewrite rest_inputs; exact L). specialize (IH Lp). rewrite rest_actual in *.
    assert (Into : forall d0 p0, barred d0 p0 /\ leads_to fs cwd c p0 p -> exists d1 p1, barred d1 p1 /\ leads_to fs cwd c p1 (path_join (actual cwd c p) n)).
    { intros d0 p0 [B T]. exists d0, p0. split; [exact B|]. eapply lt_into; eauto. }
    assert (Kf : kept_from fs cwd search c d p -> exists d1 p1, barred d1 p1 /\ leads_to fs cwd c p1 (path_join (actual cwd c p) n)).
    { intros K. apply (Into d p). split; [split; assumption|apply lt_here]. }
    destruct IH as [Lc|(d0 & p0 & B)]; [|right; exact (Into d0 p0 B)].
    destruct (left_or d p N) as [N'|K]; [|right; apply Kf, K]. destruct (shown_or d p S) as [S'|K]; [|right; apply Kf, K].
    destruct (folder_or d p F) as [F'|K]; [|right; apply Kf, K].
    destruct (c_analyze_hidden c) eqn:Hh.
    - left. eapply LEntry; eauto. rewrite Hh. exact S'.
    - destruct (begins_dec "." n) as [B|B].
      + right. exists (Datatypes.S d), (path_join (actual cwd c p) n). split; [split; [exact L0|]|apply lt_here].
        eapply kf_entry; eauto.
      + left. eapply LEntry; eauto. rewrite Hh. exact S'.
  Qed.
  Lemma finds_or q : finds w c' paths q -> finds w c paths q \/ exists d0 p0 p, barred d0 p0 /\ leads_to fs cwd c p0 p /\ q = actual cwd c p.
  Proof.
    intros (d & p & L & N & S & E & F & P). rewrite rest_actual in E.
    assert (Kf : kept_from fs cwd search c d p -> exists d0 p0 p, barred d0 p0 /\ leads_to fs cwd c p0 p /\ q = actual cwd c p).
    { intros K. exists d, p, p. split; [split; assumption|]. split; [apply lt_here|exact E]. }
    destruct (looks_or d p L) as [Lc|(d0 & p0 & B & T)]; [|right; exists d0, p0, p; auto].
    destruct (left_or d p N) as [N'|K]; [|right; apply Kf, K]. destruct (shown_or d p S) as [S'|K]; [|right; apply Kf, K].
    left. exists d, p. auto 10.
  Qed.

  Lemma found_lists (a : config) fuel l : found_files w a fuel paths = Some (Ok l) -> exists m, l = isort str_leb (dedup m).
  Proof.
    unfold found_files. destruct (detect_paths _ _ _ _ _ _ _ _ _) as [[m|e]|]; try discriminate. intros H. injection H as <-. exists m. reflexivity.
  Qed.
  Lemma found_further fuel fuel' l l' : found_files w c fuel paths = Some (Ok l) -> found_files w c' fuel' paths = Some (Ok l') -> incl l l'.
  Proof. intros H H' q I. apply (found_iff _ _ _ _ _ H'), finds_further, (found_iff _ _ _ _ _ H), I. Qed.
  Lemma found_barred fuel fuel' l l' q : found_files w c fuel paths = Some (Ok l) -> found_files w c' fuel' paths = Some (Ok l') ->
    In q l' -> In q l \/ exists d0 p0 p, barred d0 p0 /\ leads_to fs cwd c p0 p /\ q = actual cwd c p.
  Proof.
    intros H H' I. apply (found_iff _ _ _ _ _ H') in I. destruct (finds_or q I) as [F|B]; [left|right; exact B]. apply (found_iff _ _ _ _ _ H), F.
  Qed.
  Lemma found_equal fuel fuel' l r : (forall d p, ~ barred d p) ->
    found_files w c fuel paths = Some (Ok l) -> found_files w c' fuel' paths = Some r -> r = Ok l.
  Proof.
    intros B H H'. destruct r as [l'|e].
    - f_equal. destruct (found_lists _ _ _ H) as [m ->], (found_lists _ _ _ H') as [m' ->]. apply isort_str_eq; try apply dedup_NoDup.
      intros q. split; intros I; apply (isort_In str_leb) in I; apply (isort_In str_leb).
      + destruct (found_barred _ _ _ _ _ H H' I) as [J|(d & p & x & X & _)]; [exact J|contradiction (B _ _ X)].
      + exact (found_further _ _ _ _ H H' q I).
    - exfalso. unfold found_files in H'. destruct (detect_paths _ _ _ _ _ _ _ fuel' _) as [[m|x]|] eqn:D; try discriminate H'. injection H' as ->.
      apply detect_err in D as (_ & _ & Hd & I & N).
      assert (L : looks w c' paths 0 "") by (apply LGiven, I).
      destruct (left_or 0 "" N) as [N'|K]; [|exact (B 0%nat "" (conj L K))].
      assert (Hc : c_analyze_hidden c = false) by (destruct (c_analyze_hidden c) eqn:X; [rewrite (lf_hidden _ _ Far X) in Hd; discriminate|reflexivity]).
      unfold found_files in H. destruct (detect_paths _ _ _ _ _ _ _ fuel _) as [[m|x]|] eqn:D'; try discriminate H.
      assert (Fu : (0 < fuel)%nat) by (destruct fuel; [discriminate D'|auto with arith]).
      rewrite rest_inputs in I.
      assert (X : detect_paths fs cwd search c (c_analyze_hidden c) (ignore_chars_of c) (c_scan_symlink_folders c) fuel (input_paths w c paths) = Some (Err IndexError)).
      { apply detect_err. auto. }
      rewrite X in D'. discriminate.
  Qed.
End Further.

(** The settings matter for nothing else. *)
Section Analysis.
  Variables (c c' : config).
  Hypothesis Rest : c' = w_analyze_hidden (c_analyze_hidden c') (w_scan_symlink_folders (c_scan_symlink_folders c')
                   (w_exclusion_regex_set (c_exclusion_regex_set c') c)).
  Lemma selection_apart : apart c c'.
  Proof. destruct c, c'. unfold apart. cbn in *. injection Rest. intros. subst. reflexivity. Qed.
  Lemma selection_absent v : for_absent v c c'.
  Proof. rewrite Rest. constructor; left; reflexivity. Qed.
  Lemma selection_process h major file how n paths : process h major c' file how n paths = process h major c file how n paths.
  Proof. apply (process_same c c' selection_apart). intros. apply selection_absent. Qed.
  Lemma selection_report versions s : report c' versions s = report c versions s.
  Proof.
    apply (report_same c c' selection_apart). unfold differ.
    replace (c_eval_annotations c') with (c_eval_annotations c) by (rewrite Rest; reflexivity). rewrite Bool.eqb_reflx. discriminate.
  Qed.
  Lemma selection_detect h major path src p : api_detect h major c' path src p = api_detect h major c path src p.
  Proof.
    destruct (parser_detect major c p) as [v nov|mv pr|x] eqn:D; [apply (detect_same c c' selection_apart) with v nov; [apply selection_absent|exact D]|..];
    (assert (D' : parser_detect major c' p = parser_detect major c p) by (rewrite Rest; reflexivity); unfold api_detect, api_visit; rewrite D', D; reflexivity).
  Qed.
End Analysis.
Lemma selection_local c c' : c' = w_analyze_hidden (c_analyze_hidden c') (w_scan_symlink_folders (c_scan_symlink_folders c')
                   (w_exclusion_regex_set (c_exclusion_regex_set c') c)) ->
  let a := local_config c in let a' := local_config c' in
  a' = w_analyze_hidden (c_analyze_hidden a') (w_scan_symlink_folders (c_scan_symlink_folders a') (w_exclusion_regex_set (c_exclusion_regex_set a') a)).
Proof.
  intros R. destruct c, c'. cbn in R. injection R. intros. subst. unfold local_config. destruct c_only_show_violations, c_quiet; reflexivity.
Qed.
Lemma selection_run w c c' versions files : c' = w_analyze_hidden (c_analyze_hidden c') (w_scan_symlink_folders (c_scan_symlink_folders c')
                   (w_exclusion_regex_set (c_exclusion_regex_set c') c)) ->
  run_files w c' versions files = run_files w c versions files.
Proof.
  intros R. unfold run_files. rewrite (selection_process _ _ (selection_local c c' R)).
  assert (E : c_processes (local_config c') = c_processes (local_config c)) by (rewrite (selection_local c c' R); reflexivity). rewrite E.
  assert (E1 : c_format c' = c_format c) by (rewrite R; reflexivity). rewrite E1.
  assert (E2 : forall m, nprint c' m = nprint c m) by (intros m; rewrite R; reflexivity).
  assert (E3 : forall m, vprint c' m = vprint c m) by (intros m; rewrite R; reflexivity).
  assert (E4 : c_processes c' = c_processes c) by (rewrite R; reflexivity). rewrite E4, E3, !E2.
  destruct files as [|f files]; [reflexivity|]. destruct (process _ _ _ _ _ _ _) as [out [s|x]]; [rewrite (selection_report c c' R)|]; reflexivity.
Qed.
