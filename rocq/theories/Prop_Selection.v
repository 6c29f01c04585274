(** C89: settings on which files to look at matter only for the files they are about. *)
From Verif Require Import PyBase PyLemmas Utility RulesData Rules Config Formats Paths Pool Detection AstKinds Ast State Visitor MinVersions Parser
  Arguments Processor Main Spec_Base Spec_Detection Spec_Visitor Spec_Main Spec_Same Spec_More Spec_Selection Proof_Given Proof_More Proof_Selection
  Samples Trees Prop_Detection Prop_Visitor Prop_Main Prop_Fewer Prop_Laxer.

(** Looking further never loses a file ... *)
Theorem c89_more : forall w c c' fuel fuel' paths l l', looks_further c c' ->
  found_files w c fuel paths = Some (Ok l) -> found_files w c' fuel' paths = Some (Ok l') -> incl l l'.
Proof. intros w c c' fuel fuel' paths l l' F H H'. exact (found_further w c c' paths F _ _ _ _ H H'). Qed.
Print Assumptions c89_more.

(** ... and every further file is at, or below, a path that was looked at now and that the other settings keep from: a hidden
    one, a folder behind a symbolic link, or one that matches a pattern. *)
Theorem c89_only : forall w c c' fuel fuel' paths l l' q, looks_further c c' ->
  found_files w c fuel paths = Some (Ok l) -> found_files w c' fuel' paths = Some (Ok l') -> In q l' -> ~ In q l ->
  exists d0 p0 p,
    looked_at (w_fs w) (w_cwd w) (w_search w) c' (c_analyze_hidden c') (ignore_chars_of c') (c_scan_symlink_folders c') (input_paths w c' paths) d0 p0 /\
    kept_from (w_fs w) (w_cwd w) (w_search w) c d0 p0 /\ leads_to (w_fs w) (w_cwd w) c p0 p /\ q = actual (w_cwd w) c p.
Proof.
  intros w c c' fuel fuel' paths l l' q F H H' I N. destruct (found_barred w c c' paths F _ _ _ _ q H H' I) as [J|(d0 & p0 & p & [B K] & T & E)]; [contradiction|].
  exists d0, p0, p. auto.
Qed.
Print Assumptions c89_only.

(** If there is no such path the same files are found. *)
Theorem c89_same : forall w c c' fuel fuel' paths l r, looks_further c c' ->
  (forall d p, looked_at (w_fs w) (w_cwd w) (w_search w) c' (c_analyze_hidden c') (ignore_chars_of c') (c_scan_symlink_folders c') (input_paths w c' paths) d p ->
     ~ kept_from (w_fs w) (w_cwd w) (w_search w) c d p) ->
  found_files w c fuel paths = Some (Ok l) -> found_files w c' fuel' paths = Some r -> r = Ok l.
Proof. intros w c c' fuel fuel' paths l r F B H H'. apply (found_equal w c c' paths F fuel fuel' l r); [|exact H|exact H']. intros d p [L K]. exact (B d p L K). Qed.
Print Assumptions c89_same.

(** For nothing else do these settings matter: the API never looks at them, and the same files are analysed and reported in the
    same way, whatever the settings are. *)
Theorem c89_detect : forall h major c c' path src p, same_but_selection c c' -> api_detect h major c' path src p = api_detect h major c path src p.
Proof. intros h major c c' path src p R. exact (selection_detect c c' R h major path src p). Qed.
Print Assumptions c89_detect.
Theorem c89_files : forall w c c' versions files, same_but_selection c c' -> run_files w c' versions files = run_files w c versions files.
Proof. intros w c c' versions files R. exact (selection_run w c c' versions files R). Qed.
Print Assumptions c89_files.

(** So a whole run prints the same and ends the same if there is no such path ... *)
Theorem c89_main : forall w fuel fuel' args args' c c' paths versions printed files o,
  parse (w_cpus w) (w_re_ok w) (w_excl_file w) (w_cwd w) (w_cfg_file w) (w_detected w) args (default_config (w_cpus w)) = Ok (c, OPaths paths versions printed) ->
  parse (w_cpus w) (w_re_ok w) (w_excl_file w) (w_cwd w) (w_cfg_file w) (w_detected w) args' (default_config (w_cpus w)) = Ok (c', OPaths paths versions printed) ->
  looks_further c c' ->
  (forall d p, looked_at (w_fs w) (w_cwd w) (w_search w) c' (c_analyze_hidden c') (ignore_chars_of c') (c_scan_symlink_folders c') (input_paths w c' paths) d p ->
     ~ kept_from (w_fs w) (w_cwd w) (w_search w) c d p) ->
  found_files w c fuel paths = Some (Ok files) ->
  main w fuel' args' = Some o -> main w fuel args = Some o.
Proof.
  intros w fuel fuel' args args' c c' paths versions printed files o P P' F B H M. unfold main in *. rewrite P. rewrite P' in M. rewrite H.
  destruct (found_files w c' fuel' paths) as [r|] eqn:H'; [|discriminate M].
  rewrite (c89_same w c c' _ _ _ _ _ F B H H') in M. rewrite (c89_files w c c' _ _ (lf_rest _ _ F)) in M.
  assert (E1 : c_format c' = c_format c) by (rewrite (lf_rest _ _ F); reflexivity).
  assert (E2 : forall m, vprint c' m = vprint c m) by (intros m; rewrite (lf_rest _ _ F); reflexivity).
  rewrite E1, E2 in M. exact M.
Qed.
Print Assumptions c89_main.

(** ... and if there are, it requires no less, unless files clash. *)
Theorem c89_no_less : forall w c c' fuel fuel' paths l l' n n' rs rs', looks_further c c' ->
  found_files w c fuel paths = Some (Ok l) -> found_files w c' fuel' paths = Some (Ok l') ->
  analysed (w_hooks w) (w_major w) c (w_file w) (w_ending w) l rs -> analysed (w_hooks w) (w_major w) c (w_file w) (w_ending w) l' rs' ->
  toured rs' -> 1 <= n -> 1 <= n' -> combinable c rs' ->
  exists out s out' s', process (w_hooks w) (w_major w) c (w_file w) (w_ending w) n l = (out, Ok s) /\
    process (w_hooks w) (w_major w) c' (w_file w) (w_ending w) n' l' = (out', Ok s') /\ says_no_less s s'.
Proof.
  intros w c c' fuel fuel' paths l l' n n' rs rs' F H H' A A' T N N' C.
  rewrite (selection_process c c' (lf_rest _ _ F)).
  exact (files_more _ _ _ _ _ _ _ _ _ _ _ A A' T (c89_more _ _ _ _ _ _ _ _ F H H') N N' C).
Qed.
Print Assumptions c89_no_less.

(** ** A folder with a hidden file and a symlinked folder; and the same without them. *)
Ltac run := vm_compute; reflexivity.
Definition fs3 : fsys := mkFs
  (fun p => if mem p ["/w"; "/w/d"] then Some KDir
            else if mem p ["/w/a.py"; "/w/.h.py"; "/w/d/b.py"; "/w/l/c.py"] then Some KReg
            else if String.eqb p "/w/l" then Some KLnk else None)
  (fun p => if String.eqb p "/w/l" then Some KDir else None)
  (fun p => if String.eqb p "/w" then Some ["a.py"; ".h.py"; "d"; "l"]
            else if String.eqb p "/w/d" then Some ["b.py"]
            else if String.eqb p "/w/l" then Some ["c.py"] else None)
  (fun p => Some []).
Definition search3 (r p : string) : bool := contains r p.
Definition world3 (fs : fsys) : world :=
  mkWorld 4 3 "/w" fs (fun _ => true) search3 (fun _ => None) (fun _ => CfgUnreadable) (Ok None)
          (fun p => if String.eqb p "/w/a.py" then files0 "a.py" else files0 "b.py") all_done no_hooks.
Definition narrow3 : config := w_exclusion_regex_set ["/d/"] (default_config 4).
Definition wide3 : config := w_analyze_hidden true (w_scan_symlink_folders true (default_config 4)).
Example c89_case : looks_further narrow3 wide3 /\
  found_files (world3 fs3) narrow3 4 ["."] = Some (Ok ["/w/a.py"]) /\
  found_files (world3 fs3) wide3 4 ["."] = Some (Ok ["/w/.h.py"; "/w/a.py"; "/w/d/b.py"; "/w/l/c.py"]) /\
  found_files (world3 fs3) (w_analyze_hidden true narrow3) 4 ["."] = Some (Ok ["/w/.h.py"; "/w/a.py"]) /\
  found_files (world3 fs3) (w_scan_symlink_folders true narrow3) 4 ["."] = Some (Ok ["/w/a.py"; "/w/l/c.py"]) /\
  found_files (world3 fs3) (default_config 4) 4 ["."] = Some (Ok ["/w/a.py"; "/w/d/b.py"]).
Proof.
  split; [constructor; try reflexivity; try discriminate; intros x []|]. repeat split; run.
Qed.

(** Only the file and the plain folder are there. *)
Definition fs4 : fsys := mkFs
  (fun p => if mem p ["/w"; "/w/d"] then Some KDir else if mem p ["/w/a.py"; "/w/d/b.py"] then Some KReg else None)
  (fun p => None)
  (fun p => if String.eqb p "/w" then Some ["a.py"; "d"] else if String.eqb p "/w/d" then Some ["b.py"] else None)
  (fun p => Some []).
Definition narrow4 : config := w_exclusion_regex_set ["test"] (default_config 4).
Lemma looked4 : forall d p,
  looked_at fs4 "/w" search3 wide3 true [] true ["/w"] d p -> In p ["/w"; "/w/a.py"; "/w/d"; "/w/d/b.py"].
Proof.
  induction 1 as [p I|d p names n L IH N S F E I Hd]; [destruct I as [<-|[]]; left; reflexivity|].
  cbn [In] in IH. destruct IH as [<-|[<-|[<-|[<-|[]]]]]; vm_compute in E; try discriminate E; injection E as <-;
    cbn [In] in I; repeat (destruct I as [<-|I]; [apply mem_In; run|]); destruct I.
Qed.
Example c89_main_case : let w := world3 fs4 in let c := narrow4 in let c' := wide3 in
  parse 4 (fun _ => true) (fun _ => None) "/w" (fun _ => CfgUnreadable) (Ok None) ["--exclude-regex"; "test"; "."] (default_config 4) = Ok (c, OPaths ["."] false []) /\
  parse 4 (fun _ => true) (fun _ => None) "/w" (fun _ => CfgUnreadable) (Ok None) ["--hidden"; "--scan-symlink-folders"; "."] (default_config 4) = Ok (c', OPaths ["."] false []) /\
  looks_further c c' /\
  (forall d p, looked_at (w_fs w) (w_cwd w) (w_search w) c' (c_analyze_hidden c') (ignore_chars_of c') (c_scan_symlink_folders c') (input_paths w c' ["."]) d p ->
     ~ kept_from (w_fs w) (w_cwd w) (w_search w) c d p) /\
  found_files w c 4 ["."] = Some (Ok ["/w/a.py"; "/w/d/b.py"]) /\
  option_map snd (main w 4 ["--hidden"; "--scan-symlink-folders"; "."]) = Some (Ok 0).
Proof.
  cbv zeta. split; [run|]. split; [run|]. split; [constructor; try reflexivity; try discriminate; intros x []|]. split; [|split; run].
  intros d p L. change (looked_at fs4 "/w" search3 wide3 true [] true ["/w"] d p) in L. apply looked4 in L.
  intros K. destruct K as [d p H N B|d f names n H E I B|d p H A B|d p r I S].
  - destruct B as [b ->]. cbn [In] in L. intuition discriminate.
  - destruct B as [b ->]. cbn [w_fs world3 fs4 fs_listdir] in E. destruct (String.eqb f "/w"); [injection E as <-; cbn [In] in I; intuition discriminate|].
    destruct (String.eqb f "/w/d"); [injection E as <-; cbn [In] in I; intuition discriminate|discriminate E].
  - cbn in B. discriminate B.
  - destruct I as [<-|[]]. cbn [In] in L. destruct L as [<-|[<-|[<-|[<-|[]]]]]; vm_compute in S; discriminate S.
Qed.

(** a.py imports argparse, the hidden file uses an assignment expression. *)
Definition results3 (paths : list string) : list (option presult) :=
  flat_map (fun p => match snd (process_individual no_hooks 3 narrow3 p (w_file (world3 fs3) p) EndDone) with Ok r => [r] | Err _ => [] end) paths.
Example c89_no_less_case : let w := world3 fs3 in let few := ["/w/a.py"] in let more := ["/w/.h.py"; "/w/a.py"] in
  looks_further narrow3 (w_analyze_hidden true narrow3) /\
  analysed (w_hooks w) (w_major w) narrow3 (w_file w) (w_ending w) few (results3 few) /\
  analysed (w_hooks w) (w_major w) narrow3 (w_file w) (w_ending w) more (results3 more) /\
  toured (results3 more) /\ combinable narrow3 (results3 more) /\
  (exists s, process (w_hooks w) (w_major w) narrow3 (w_file w) (w_ending w) 2 few = ("", Ok s) /\ m_mins s = (Some (2, 7), Some (3, 2))) /\
  (exists s, process (w_hooks w) (w_major w) (w_analyze_hidden true narrow3) (w_file w) (w_ending w) 4 more = ("", Ok s) /\ m_mins s = (None, Some (3, 8))).
Proof.
  cbv zeta. split; [constructor; try reflexivity; auto; intros x I; exact I|].
  assert (E1 : map (option_map r_mins) (results3 ["/w/.h.py"; "/w/a.py"]) = [Some (MVers (None, Some (3, 8))); Some (MVers (Some (2, 7), Some (3, 2)))]) by run.
  assert (V : forall m, verdict_in (results3 ["/w/.h.py"; "/w/a.py"]) m -> In m [(None, Some (3, 8)); (Some (2, 7), Some (3, 2))]).
  { intros m (r & I & E). apply (in_map (option_map r_mins)) in I. rewrite E1 in I. cbn [option_map] in I. rewrite E in I. cbn [In] in I |- *.
    destruct I as [I|[I|[]]]; injection I as <-; auto. }
  split; [analyse|]. split; [analyse|]. split.
  { intros r I. apply (in_map (option_map r_mins)) in I. rewrite E1 in I. cbn [option_map In] in I. intros E. rewrite E in I. intuition discriminate. }
  split.
  { right. intros a b A B. apply V in A, B. cbn [In] in A, B. unfold clashing, py2_only, py3_only.
    destruct A as [<-|[<-|[]]], B as [<-|[<-|[]]]; cbn; intuition congruence. }
  split; eexists; (split; [vm_compute; reflexivity|reflexivity]).
Qed.
