(** C28-C31: finding the files to analyse. *)
From Coq Require Import Sorted.
From Verif Require Import PyBase PyLemmas Utility RulesData Rules Config Paths Pool Detection Processor Main
  Spec_Base Spec_Detection Proof_Pool Proof_Strings Proof_Detection.

(** ** C28 *)

(** The files found are exactly the files that should be found. *)
Theorem c28_sound_complete : forall fs cwd search c hidden ignore scan fuel paths l,
  detect_paths fs cwd search c hidden ignore scan fuel paths = Some (Ok l) ->
  forall q, In q l <-> should_find fs cwd search c hidden ignore scan paths q.
Proof. exact detect_ok. Qed.

(** The only way to fail is an empty path among the given ones. *)
Theorem c28_fails_iff : forall fs cwd search c hidden ignore scan fuel paths e,
  detect_paths fs cwd search c hidden ignore scan fuel paths = Some (Err e) <->
  (0 < fuel)%nat /\ e = IndexError /\ hidden = false /\ In "" paths /\ not_left_out search c ignore "".
Proof. exact detect_err. Qed.

(** When folders are nested less than [n] deep, [n + 1] rounds are enough. *)
Theorem c28_terminates : forall fs cwd search c hidden ignore scan n paths,
  (forall p, ~ looked_at fs cwd search c hidden ignore scan paths n p) ->
  forall fuel, (n < fuel)%nat -> exists r, detect_paths fs cwd search c hidden ignore scan fuel paths = Some r.
Proof. exact detect_total. Qed.

(** A file system with one folder, a symlinked folder, a hidden file and a script. *)
Definition fs1 : fsys := mkFs
  (fun p => if mem p ["/w"; "/w/d"] then Some KDir
            else if mem p ["/w/a.py"; "/w/.h.py"; "/w/d/b.PY"; "/w/d/run"; "/w/d/x.txt"] then Some KReg
            else if String.eqb p "/w/l" then Some KLnk else None)
  (fun p => if String.eqb p "/w/l" then Some KDir else None)
  (fun p => if String.eqb p "/w" then Some ["a.py"; ".h.py"; "d"; "l"]
            else if String.eqb p "/w/d" then Some ["b.PY"; "run"; "x.txt"]
            else if String.eqb p "/w/l" then Some ["c.py"] else None)
  (fun p => if String.eqb p "/w/d/run" then Some [Some ("  #! /usr/bin/env PYTHON3" +++ nl)] else Some []).
Definition no_match (_ _ : string) : bool := false.
Example c28_case :
  detect_paths fs1 "/w" no_match (default_config 1) false [] false 3 ["/w"; "/w/d/x.txt"]
  = Some (Ok ["/w/d/x.txt"; "/w/a.py"; "/w/d/b.PY"; "/w/d/run"]).
Proof. vm_compute. reflexivity. Qed.
Example c28_nested : forall p, ~ looked_at fs1 "/w" no_match (default_config 1) false [] false ["/w/a.py"] 1 p.
Proof.
  intros p H. inversion H as [|d p0 names n L N S F E I Hd]; subst. inversion L as [q [<-|[]]|]; subst.
  destruct F as [F|[_ [F _]]]; vm_compute in F; discriminate.
Qed.

(** ** C29 *)

(** The result is sorted and without repetition. *)
Theorem c29_sorted : forall w c fuel paths l, found_files w c fuel paths = Some (Ok l) -> StronglySorted str_lt l.
Proof.
  unfold found_files. intros w c fuel paths l H.
  destruct (detect_paths _ _ _ _ _ _ _ _ _) as [[m|e]|]; try discriminate.
  inversion H; subst. apply sorted_files.
Qed.

(** The order in which folders list their entries and the order and repetition of the given paths do
    not matter, nor does the rest of the machine. *)
Theorem c29_order_independent : forall w1 w2 c fuel1 fuel2 paths1 paths2 l1 l2,
  same_listings (w_fs w1) (w_fs w2) -> w_cwd w1 = w_cwd w2 ->
  (forall r p, w_search w1 r p = w_search w2 r p) ->
  (forall p, In p paths1 <-> In p paths2) ->
  found_files w1 c fuel1 paths1 = Some (Ok l1) -> found_files w2 c fuel2 paths2 = Some (Ok l2) -> l1 = l2.
Proof.
  unfold found_files. intros w1 w2 c fuel1 fuel2 paths1 paths2 l1 l2 L C S P H1 H2.
  destruct (detect_paths _ _ _ _ _ _ _ fuel1 _) as [[m1|e]|] eqn:D1; try discriminate.
  destruct (detect_paths _ _ _ _ _ _ _ fuel2 _) as [[m2|e]|] eqn:D2; try discriminate.
  inversion H1; inversion H2; subst. apply isort_str_eq; try apply dedup_NoDup.
  intros q. rewrite !dedup_In. rewrite (detect_ok _ _ _ _ _ _ _ _ _ _ D1), (detect_ok _ _ _ _ _ _ _ _ _ _ D2).
  assert (Pi : forall p, In p (input_paths w1 c paths1) <-> In p (input_paths w2 c paths2)).
  { intros p. unfold input_paths. rewrite C. destruct (c_make_paths_absolute c); auto.
    rewrite !in_map_iff. split; intros (x & E & X); exists x; (split; [auto|apply P; auto]). }
  assert (Se : forall s1 s2 a cwd c hd ig sc ps q, (forall r p, s1 r p = s2 r p) ->
    should_find a cwd s1 c hd ig sc ps q -> should_find a cwd s2 c hd ig sc ps q).
  { clear. intros s1 s2 a cwd c hd ig sc ps q E (d & p & X & N & R).
    assert (Ne : forall p, not_left_out s1 c ig p -> not_left_out s2 c ig p).
    { intros p0 [N1 N2]. split; auto. intros r Hr. rewrite <- E; auto. }
    exists d, p. split; [|auto]. clear - X Ne. induction X; [apply LGiven; auto|eapply LEntry; eauto]. }
  split; intros Q.
  - rewrite <- C. apply (Se (w_search w1)); auto. eapply finds_same; eauto.
  - rewrite C. apply (Se (w_search w2)); auto. eapply finds_same; [apply same_listings_sym; eauto| |eauto].
    intros p. symmetry. auto.
Qed.

(** Any number of workers, finishing in any order, give exactly the result of one process; and a pool
    can always finish when one process can. *)
Theorem c29_processes : forall fs cwd search c hidden ignore scan paths r,
  detect_pool fs cwd search c hidden ignore scan 0 [paths] r <->
  exists fuel, detect_paths fs cwd search c hidden ignore scan fuel paths = Some r.
Proof.
  intros. split.
  - apply pool_loop.
  - intros [fuel H]. eapply loop_pool. exact H.
Qed.

(** Hence every pool execution gives the same list, in the same order. *)
Theorem c29_schedules_agree : forall fs cwd search c hidden ignore scan paths r1 r2,
  detect_pool fs cwd search c hidden ignore scan 0 [paths] r1 ->
  detect_pool fs cwd search c hidden ignore scan 0 [paths] r2 -> r1 = r2.
Proof.
  intros fs cwd search c hidden ignore scan paths r1 r2 H1 H2.
  apply pool_loop in H1 as [f1 H1]. apply pool_loop in H2 as [f2 H2]. eapply loop_unique; eauto.
Qed.

(** Pool.imap itself: under every schedule of the workers the consumer receives the results in task
    order, and once all tasks have completed the rest is ready. *)
Theorem c29_imap_in_order : forall (A : Type) (f : nat -> A) n evs s got,
  schedule n evs -> imap_run f evs imap_init [] = (s, got) ->
  got = map f (seq 0 (List.length got)) /\ (List.length got <= n)%nat /\
  ((forall i, (i < n)%nat -> In i (completions evs)) -> got ++ im_items s = map f (seq 0 n)).
Proof.
  intros A f n evs s got S R. destruct (imap_results f n evs s got S R) as [H K].
  split; auto. split; auto. intros F. eapply imap_complete; eauto.
Qed.

Example c29_imap_case :
  let evs := [Complete 2; Next; Complete 0; Next; Next; Complete 1; Next; Next] in
  schedule 3 evs /\ snd (imap_run (fun i => i) evs imap_init []) = [0; 1; 2]%nat.
Proof.
  split; [|reflexivity]. split.
  - simpl. repeat constructor; simpl; intuition congruence.
  - simpl. intros i H. intuition lia.
Qed.

(** ** C30 *)

Definition fs2 : fsys := mkFs
  (fun p => if mem p ["."; "./a.py"; ".h.py"; "a.py"]
            then Some (if String.eqb p "." then KDir else KReg) else None)
  (fun p => None)
  (fun p => if String.eqb p "." then Some ["a.py"] else None)
  (fun p => Some []).
Definition world_of (fs : fsys) (h : hooks) : world :=
  mkWorld 1 3 "/w" fs (fun _ => true) no_match (fun _ => None) (fun _ => CfgUnreadable) (Ok None)
          (fun _ => FcErr PeValue) (fun _ => EndDone) h.

(** False of the code: without absolute paths, a hidden file given directly is not analysed ... *)
Theorem c30_hidden_given_refuted : exists fs c p, c_make_paths_absolute c = false /\ is_file fs p /\
  c_exclusion_regex_set c = [] /\
  forall cwd search fuel, detect_paths fs cwd search c (c_analyze_hidden c) [] false (S (S fuel)) [p] = Some (Ok []).
Proof.
  exists fs2, (w_make_paths_absolute false (default_config 1)), ".h.py".
  split; [reflexivity|]. split; [left; reflexivity|]. split; [reflexivity|]. intros. reflexivity.
Qed.

(** ... and "." yields nothing, whatever the folder contains, unless hidden files are wanted: the
    entries' paths begin with "./". *)
Theorem c30_dot_refuted : forall fs cwd search c ignore scan fuel l,
  c_make_paths_absolute c = false -> fs_lstat fs "." = Some KDir ->
  (forall names n, fs_listdir fs "." = Some names -> In n names -> isabs n = false) ->
  detect_paths fs cwd search c false ignore scan fuel ["."] = Some (Ok l) -> l = [].
Proof.
  intros fs cwd search c ignore scan fuel l A D R H.
  assert (N : forall q, ~ In q l).
  { intros q Q. apply (detect_ok _ _ _ _ _ _ _ _ _ _ H) in Q as (d & p & L & N & S & E & F & P).
    assert (Lk : forall d p, looked_at fs cwd search c false ignore scan ["."] d p ->
              (d = O /\ p = ".") \/ (d = 1%nat /\ exists r, p = String "." (String "/" r))).
    { clear - A R. intros d p L. induction L as [p [<-|[]]|d p names n L IH N S F E I Hd]; [left; auto|right].
      destruct IH as [[-> ->]|[-> [r ->]]].
      - split; auto. unfold actual in *. rewrite A in *. unfold path_join. rewrite (R _ _ E I). simpl. eauto.
      - exfalso. destruct S as [S|[S|S]]; try discriminate. apply S. exists (String "/" r). auto. }
    destruct (Lk _ _ L) as [[-> ->]|[-> [r ->]]].
    - subst q. unfold actual in F. rewrite A in F. destruct F as [F|[F _]]; congruence.
    - destruct S as [S|[S|S]]; try discriminate. apply S. exists (String "/" r). auto. }
  destruct l as [|x l]; auto. exfalso. apply (N x). left; auto.
Qed.
Example c30_dot_case :
  detect_paths fs2 "/w" no_match (w_make_paths_absolute false (default_config 1)) false [] false 5 ["."] = Some (Ok []).
Proof. vm_compute. reflexivity. Qed.

(** With absolute paths (the default) every file given directly is analysed, hidden or not ... *)
Theorem c30_given_file_partial : forall w c fuel paths l p,
  c_make_paths_absolute c = true -> isabs (w_cwd w) = true ->
  found_files w c fuel paths = Some (Ok l) -> In p paths ->
  is_file (w_fs w) (abspath (w_cwd w) p) ->
  not_left_out (w_search w) c (ignore_chars_of c) (abspath (w_cwd w) p) ->
  In (abspath (w_cwd w) p) l.
Proof.
  unfold found_files. intros w c fuel paths l p A C H P F N.
  destruct (detect_paths _ _ _ _ _ _ _ fuel _) as [[m|e]|] eqn:D; try discriminate.
  inversion H; subst. apply isort_In, dedup_In. apply (detect_ok _ _ _ _ _ _ _ _ _ _ D).
  unfold input_paths. rewrite A.
  exists O, (abspath (w_cwd w) p). destruct (abspath_abs (w_cwd w) p C) as [r E].
  split; [apply LGiven, in_map; auto|]. split; auto.
  split; [right; right; rewrite E; intros [b B]; discriminate|].
  split; [unfold actual; rewrite A, abspath_fixed; auto|]. split; auto.
Qed.

(** ... and so is every Python file directly in a given folder, "." and hidden folders included. *)
Theorem c30_given_folder_partial : forall w c fuel paths l p names n,
  c_make_paths_absolute c = true -> isabs (w_cwd w) = true ->
  found_files w c fuel paths = Some (Ok l) -> In p paths ->
  let d := abspath (w_cwd w) p in
  is_folder (w_fs w) true d -> fs_listdir (w_fs w) d = Some names -> In n names -> ~ begins "." n ->
  not_left_out (w_search w) c (ignore_chars_of c) d ->
  let q := path_join d n in
  not_left_out (w_search w) c (ignore_chars_of c) q ->
  is_file (w_fs w) (abspath (w_cwd w) q) -> probably_python_file (w_fs w) (abspath (w_cwd w) q) = true ->
  In (abspath (w_cwd w) q) l.
Proof.
  intros w c fuel paths l p names n A C H P d F E I Hd N q Nq Fq Pq. unfold found_files in H.
  destruct (detect_paths _ _ _ _ _ _ _ fuel _) as [[m|e]|] eqn:D; try discriminate.
  inversion H; subst. apply isort_In, dedup_In. apply (detect_ok _ _ _ _ _ _ _ _ _ _ D).
  unfold input_paths. rewrite A.
  assert (Ab : forall x, actual (w_cwd w) c x = abspath (w_cwd w) x) by (intros; unfold actual; rewrite A; auto).
  assert (Fd : actual (w_cwd w) c d = d) by (rewrite Ab; apply abspath_fixed; auto).
  destruct (abspath_abs (w_cwd w) p C) as [r Er]. fold d in Er.
  exists 1%nat, q. split.
  - unfold q. rewrite <- Fd at 1. eapply LEntry with (names := names); rewrite ?Fd; auto.
    + apply LGiven. apply in_map; auto.
    + right; right. rewrite Er. intros [b B]; discriminate.
  - split; auto. split.
    + right; right. unfold q, path_join. rewrite Er. destruct (isabs n) eqn:An.
      * auto.
      * destruct (_ || _); intros [b B]; discriminate.
    + split; [rewrite Ab; auto|]. split; auto.
Qed.
Definition fs3 : fsys := mkFs
  (fun p => if mem p ["/w"] then Some KDir else if mem p ["/w/a.py"; "/w/.h.py"] then Some KReg else None)
  (fun p => None) (fun p => if String.eqb p "/w" then Some [".h.py"; "a.py"] else None) (fun p => Some []).
Example c30_case : forall h,
  found_files (world_of fs3 h) (default_config 1) 4 ["."] = Some (Ok ["/w/a.py"]) /\
  found_files (world_of fs3 h) (default_config 1) 4 [".h.py"] = Some (Ok ["/w/.h.py"]).
Proof. intros. split; vm_compute; reflexivity. Qed.

(** ** C31 *)
Theorem c31_definite : forall fs p e, In e ["py"; "py3"; "pyw"; "pyj"; "pyi"] -> has_ext (lower p) e ->
  probably_python_file fs p = true.
Proof. exact python_file_yes. Qed.

Theorem c31_refused : forall fs p e, In e ["pyc"; "pyd"; "pxd"; "pyx"; "pyo"] \/ In e not_py_code_exts ->
  has_ext (lower p) e -> probably_python_file fs p = false.
Proof.
  intros fs p e H X.
  assert (T : forallb (fun e => negb (mem e py_exts) && negb (String.eqb e "")) (not_src_exts ++ not_py_code_exts) = true)
    by (vm_compute; reflexivity).
  rewrite forallb_forall in T. assert (K : In e (not_src_exts ++ not_py_code_exts)) by (apply in_app_iff; auto).
  specialize (T e K). apply andb_true_iff in T as [T1 T2]. apply negb_true_iff in T1, T2.
  apply mem_false in T1. apply String.eqb_neq in T2. eapply python_file_no; eauto.
Qed.

Theorem c31_magic_line : forall fs p,
  (forall e, has_ext (lower p) e -> e <> "" -> ~ In e py_exts /\ ~ In e not_src_exts /\ ~ In e not_py_code_exts) ->
  (probably_python_file fs p = true <-> exists ls, fs_lines fs p = Some ls /\ magic_file ls).
Proof. exact python_file_magic. Qed.

(** False of one entry: the table lists "DS_Store", but extensions are compared in lower case. *)
Theorem c31_ds_store_refuted : exists fs p, In "DS_Store" not_py_code_exts /\ has_ext p "DS_Store" /\
  probably_python_file fs p = true.
Proof.
  exists (mkFs (fun _ => None) (fun _ => None) (fun _ => None) (fun _ => Some [Some "#!python"])), "a.DS_Store".
  split; [apply mem_In; vm_compute; reflexivity|]. split; [|vm_compute; reflexivity].
  apply ext_iff; [discriminate|reflexivity].
Qed.

Example c31_case :
  probably_python_file fs1 "/w/X.Py3" = true /\ has_ext (lower "/w/X.Py3") "py3" /\
  probably_python_file fs1 "/w/d/run" = true /\ probably_python_file fs1 "/w/.py" = false.
Proof. split; [reflexivity|]. split; [apply ext_iff; [discriminate|reflexivity]|]. split; vm_compute; reflexivity. Qed.

Print Assumptions c28_sound_complete.
Print Assumptions c28_fails_iff.
Print Assumptions c28_terminates.
Print Assumptions c29_sorted.
Print Assumptions c29_order_independent.
Print Assumptions c29_processes.
Print Assumptions c29_schedules_agree.
Print Assumptions c29_imap_in_order.
Print Assumptions c30_hidden_given_refuted.
Print Assumptions c30_dot_refuted.
Print Assumptions c30_given_file_partial.
Print Assumptions c30_given_folder_partial.
Print Assumptions c31_definite.
Print Assumptions c31_refused.
Print Assumptions c31_magic_line.
Print Assumptions c31_ds_store_refuted.
