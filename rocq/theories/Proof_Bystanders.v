(** Files that are not for a run to analyse. Lemmas for C90. *)
From Verif Require Import PyBase PyLemmas Utility RulesData Rules Config Formats Paths Pool Detection AstKinds Ast State Visitor MinVersions Parser
  Arguments Processor Main Spec_Base Spec_Detection Spec_Bystanders Proof_Strings Proof_Parser Proof_Detection Proof_Given.

(** *** One direction *)
Section Into.
  Variables (w w' : world) (c : config) (paths : list string).
  Hypothesis Same : same_machine w w'.
  Hypothesis Alike : alike_for w w' c paths.
  Notation fs := (w_fs w).
  Notation fs' := (w_fs w').
  Notation cwd := (w_cwd w).
  Notation search := (w_search w).
  Notation looks1 := (looked_at fs cwd search c (c_analyze_hidden c) (ignore_chars_of c) (c_scan_symlink_folders c) (input_paths w c paths)).
  Notation looks2 := (looked_at fs' cwd search c (c_analyze_hidden c) (ignore_chars_of c) (c_scan_symlink_folders c) (input_paths w c paths)).

  Lemma inputs_same : input_paths w' c paths = input_paths w c paths.
  Proof. unfold input_paths. rewrite (sm_cwd _ _ Same). reflexivity. Qed.
  Lemma alike_here d p : looks1 d p -> looks2 d p -> alike_at cwd search c fs fs' d p.
  Proof.
    intros L L'. apply (Alike d p); [exact L|]. rewrite inputs_same, (sm_cwd _ _ Same), (sm_search _ _ Same). exact L'.
  Qed.
  Lemma folder_same (a b : fsys) links q : fs_lstat b q = fs_lstat a q -> fs_stat b q = fs_stat a q -> is_folder a links q -> is_folder b links q.
  Proof. unfold is_folder. intros -> ->. auto. Qed.
  Lemma file_same_at (a b : fsys) q : fs_lstat b q = fs_lstat a q -> fs_stat b q = fs_stat a q -> is_file a q -> is_file b q.
  Proof. unfold is_file. intros -> ->. auto. Qed.
  Lemma python_same (a b : fsys) q : fs_lines b q = fs_lines a q -> probably_python_file b q = probably_python_file a q.
  Proof. unfold probably_python_file. intros ->. reflexivity. Qed.

  Lemma comes_into d p : looks1 d p -> looks2 d p \/ nothing_at cwd search c fs d p.
  Proof.
    induction 1 as [p I|d p names n L IH N S F E I Hd]; [left; apply LGiven, I|].
    assert (No : ~ nothing_at cwd search c fs d p) by (intros [X|[X|[X _]]]; contradiction).
    destruct IH as [L'|X]; [|contradiction].
    destruct (alike_here d p L L') as [[X _]|(A & B & _ & D & _)]; [contradiction|].
    destruct (D names n E I) as [[[H Bg]|X]|(names' & E' & I')].
    - destruct Hd as [Hd|Hd]; [congruence|contradiction].
    - right. exact X.
    - left. eapply LEntry; [exact L'|exact N|exact S|exact (folder_same _ _ _ _ A B F)|exact E'|exact I'|exact Hd].
  Qed.
  Lemma finds_into q : should_find fs cwd search c (c_analyze_hidden c) (ignore_chars_of c) (c_scan_symlink_folders c) (input_paths w c paths) q ->
    should_find fs' cwd search c (c_analyze_hidden c) (ignore_chars_of c) (c_scan_symlink_folders c) (input_paths w c paths) q.
  Proof.
    intros (d & p & L & N & S & -> & F & P).
    assert (No : ~ nothing_at cwd search c fs d p) by (intros [X|[X|[_ X]]]; [contradiction..|apply X; split; assumption]).
    destruct (comes_into d p L) as [L'|X]; [|contradiction].
    destruct (alike_here d p L L') as [[X _]|(A & B & C & _)]; [contradiction|].
    exists d, p. split; [exact L'|]. split; [exact N|]. split; [exact S|]. split; [reflexivity|].
    split; [exact (file_same_at _ _ _ A B F)|]. destruct P as [P|P]; [left; exact P|right]. rewrite (python_same _ _ _ C). exact P.
  Qed.
End Into.

(** *** Both *)
Lemma same_machine_sym w w' : same_machine w w' -> same_machine w' w.
Proof. intros []. constructor; congruence. Qed.
Lemma alike_for_sym w w' c paths : same_machine w w' -> alike_for w w' c paths -> alike_for w' w c paths.
Proof.
  intros S A d p L' L. rewrite (sm_cwd _ _ S), (sm_search _ _ S). destruct (A d p L L') as [[X Y]|(X & Y & Z & U & V)]; [left; auto|right].
  repeat split; auto.
Qed.
Lemma finds_alike w w' c paths q : same_machine w w' -> alike_for w w' c paths -> (finds w c paths q <-> finds w' c paths q).
Proof.
  intros S A. unfold finds. rewrite (inputs_same w w' c paths S), (sm_cwd _ _ S), (sm_search _ _ S). split.
  - apply (finds_into w w' c paths S A).
  - pose proof (finds_into w' w c paths (same_machine_sym _ _ S) (alike_for_sym _ _ _ _ S A) q) as H.
    rewrite (inputs_same w w' c paths S), (sm_cwd _ _ S), (sm_search _ _ S) in H. exact H.
Qed.
Lemma found_alike w w' c paths fuel fuel' r r' : same_machine w w' -> alike_for w w' c paths ->
  found_files w c fuel paths = Some r -> found_files w' c fuel' paths = Some r' -> r' = r.
Proof.
  intros S A H H'.
  assert (Er : forall v v' k k' e l, same_machine v v' -> found_files v c k paths = Some (Err e) -> found_files v' c k' paths <> Some (Ok l)).
  { clear. intros v v' k k' e l S H H'. unfold found_files in H, H'.
    destruct (detect_paths _ _ _ _ _ _ _ k _) as [[m|x]|] eqn:D; try discriminate H.
    destruct (detect_paths _ _ _ _ _ _ _ k' _) as [[m|y]|] eqn:D'; try discriminate H'.
    apply detect_err in D as (_ & -> & Hd & I & N).
    assert (K : (0 < k')%nat) by (destruct k'; [discriminate D'|auto with arith]).
    rewrite (inputs_same v v' c paths S), (sm_search _ _ S) in D'.
    assert (X : detect_paths (w_fs v') (w_cwd v') (w_search v) c (c_analyze_hidden c) (ignore_chars_of c) (c_scan_symlink_folders c) k' (input_paths v c paths) = Some (Err IndexError)).
    { apply detect_err. auto. }
    rewrite X in D'. discriminate. }
  assert (En : forall v k e, found_files v c k paths = Some (Err e) -> e = IndexError).
  { clear. intros v k e H. unfold found_files in H. destruct (detect_paths _ _ _ _ _ _ _ k _) as [[m|x]|] eqn:D; try discriminate H.
    injection H as <-. apply detect_err in D as (_ & -> & _). reflexivity. }
  destruct r as [l|e], r' as [l'|e'].
  - f_equal. assert (I := found_iff _ _ _ _ _ H). assert (I' := found_iff _ _ _ _ _ H').
    assert (Q : forall q, In q l' <-> In q l) by (intros q; rewrite I, I'; symmetry; apply finds_alike; assumption).
    unfold found_files in H, H'.
    destruct (detect_paths _ _ _ _ _ _ _ fuel _) as [[m|e]|]; try discriminate H.
    destruct (detect_paths _ _ _ _ _ _ _ fuel' _) as [[m'|e]|]; try discriminate H'.
    injection H as <-. injection H' as <-. apply isort_str_eq; try apply dedup_NoDup. intros q.
    specialize (Q q). rewrite !isort_In in Q. exact Q.
  - exfalso. exact (Er w' w fuel' fuel e' l (same_machine_sym _ _ S) H' H).
  - exfalso. exact (Er w w' fuel fuel' e l' S H H').
  - rewrite (En _ _ _ H), (En _ _ _ H'). reflexivity.
Qed.

(** Only the files that are analysed matter to the analysis. *)
Lemma run_alike w w' c versions files : same_machine w w' ->
  (forall p, In p files -> w_file w' p = w_file w p /\ w_ending w' p = w_ending w p) ->
  run_files w' c versions files = run_files w c versions files.
Proof.
  intros S F. unfold run_files. destruct files as [|f files]; [reflexivity|].
  assert (E : process (w_hooks w') (w_major w') (local_config c) (w_file w') (w_ending w') (c_processes (local_config c)) (f :: files) =
              process (w_hooks w) (w_major w) (local_config c) (w_file w) (w_ending w) (c_processes (local_config c)) (f :: files)).
  { unfold process. rewrite (sm_hooks _ _ S), (sm_major _ _ S).
    assert (M : map (fun p => snd (process_individual (w_hooks w) (w_major w) (local_config c) p (w_file w' p) (w_ending w' p))) (f :: files) =
                map (fun p => snd (process_individual (w_hooks w) (w_major w) (local_config c) p (w_file w p) (w_ending w p))) (f :: files)).
    { apply map_ext_in. intros p I. destruct (F p I) as [-> ->]. reflexivity. }
    rewrite M. reflexivity. }
  rewrite E. reflexivity.
Qed.
