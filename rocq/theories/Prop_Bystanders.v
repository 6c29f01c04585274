(** C90: files that are not for a run to analyse do not matter to it. *)
From Verif Require Import PyBase PyLemmas Utility RulesData Rules Config Formats Paths Pool Detection AstKinds Ast State Visitor MinVersions Parser
  Arguments Processor Main Spec_Base Spec_Detection Spec_Bystanders Proof_Strings Proof_Given Proof_Bystanders Samples Trees Prop_Detection Prop_Visitor Prop_Main.

(** The same files are found, or finding them fails in the same way, in two file systems that are alike at all paths looked at. *)
Theorem c90_found : forall w w' c paths fuel fuel' r r', same_machine w w' -> alike_for w w' c paths ->
  found_files w c fuel paths = Some r -> found_files w' c fuel' paths = Some r' -> r' = r.
Proof. exact found_alike. Qed.
Print Assumptions c90_found.

(** What is in other files does not matter. *)
Theorem c90_analysis : forall w w' c versions files, same_machine w w' ->
  (forall p, In p files -> w_file w' p = w_file w p /\ w_ending w' p = w_ending w p) ->
  run_files w' c versions files = run_files w c versions files.
Proof. exact run_alike. Qed.
Print Assumptions c90_analysis.

(** So a run prints the same and ends the same. *)
Theorem c90_main : forall w w' fuel fuel' args o o', same_machine w w' ->
  (forall c paths versions printed files,
     parse (w_cpus w) (w_re_ok w) (w_excl_file w) (w_cwd w) (w_cfg_file w) (w_detected w) args (default_config (w_cpus w)) = Ok (c, OPaths paths versions printed) ->
     alike_for w w' c paths /\
     (found_files w c fuel paths = Some (Ok files) -> forall p, In p files -> w_file w' p = w_file w p /\ w_ending w' p = w_ending w p)) ->
  main w fuel args = Some o -> main w' fuel' args = Some o' -> o' = o.
Proof.
  intros w w' fuel fuel' args o o' S A M M'. unfold main in *.
  rewrite (sm_cpus _ _ S), (sm_re _ _ S), (sm_excl _ _ S), (sm_cwd _ _ S), (sm_cfg _ _ S), (sm_detected _ _ S) in M'.
  destruct (parse _ _ _ _ _ _ args _) as [[c [code hp|code|paths versions printed]]|x] eqn:P.
  - rewrite M in M'. injection M' as <-. reflexivity.
  - rewrite M in M'. injection M' as <-. reflexivity.
  - destruct (found_files w c fuel paths) as [r|] eqn:F; [|discriminate M]. destruct (found_files w' c fuel' paths) as [r'|] eqn:F'; [|discriminate M'].
    destruct (A c paths versions printed [] eq_refl) as [L _].
    rewrite (found_alike _ _ _ _ _ _ _ _ S L F F') in M'. destruct r as [files|e].
    + destruct (A c paths versions printed files eq_refl) as [_ C]. rewrite (run_alike w w' c versions files S (C F)) in M'.
      rewrite M in M'. injection M' as <-. reflexivity.
    + rewrite M in M'. injection M' as <-. reflexivity.
  - destruct x; rewrite M in M'; injection M' as <-; reflexivity.
Qed.
Print Assumptions c90_main.

(** ** One more file *)

(** [q] is put into the folder [f] as [n]. *)
Definition with_file (fs : fsys) (f n : string) (lines : option (list (option string))) : fsys :=
  let q := path_join f n in
  mkFs (fun p => if String.eqb p q then Some KReg else fs_lstat fs p) (fs_stat fs)
       (fun p => if String.eqb p f then option_map (cons n) (fs_listdir fs p) else fs_listdir fs p)
       (fun p => if String.eqb p q then lines else fs_lines fs p).
Definition on_machine (w : world) (fs : fsys) (file : string -> fcontent) : world :=
  mkWorld (w_cpus w) (w_major w) (w_cwd w) fs (w_re_ok w) (w_search w) (w_excl_file w) (w_cfg_file w) (w_detected w) file (w_ending w) (w_hooks w).
(** A new file that does not look like Python, and is not itself given, does not matter, whatever else is in it. *)
Theorem c90_new_file : forall w c f n lines file paths fuel fuel' r r', let q := path_join f n in let fs' := with_file (w_fs w) f n lines in
  let w' := on_machine w fs' file in
  fs_lstat (w_fs w) q = None -> probably_python_file fs' q = false -> actual (w_cwd w) c q = q ->
  (forall p, In p (input_paths w c paths) -> actual (w_cwd w) c p <> q) ->
  found_files w c fuel paths = Some r -> found_files w' c fuel' paths = Some r' -> r' = r.
Proof.
  intros w c f n lines file paths fuel fuel' r r' q fs' w' No Py Ab Gi H H'.
  apply (found_alike w w' c paths fuel fuel'); [constructor; reflexivity| |exact H|exact H'].
  intros d p L _.
  assert (Un : forall k, nothing_at (w_cwd w) (w_search w) c fs' (S k) q).
  { intros k. right. right. rewrite Ab. unfold is_folder, is_file. assert (Q : fs_lstat fs' q = Some KReg) by (cbn; rewrite String.eqb_refl; reflexivity).
    rewrite Q. split; [intros [X|(_ & X & _)]; discriminate|]. intros [_ [X|X]]; [discriminate|congruence]. }
  destruct (String.eqb (actual (w_cwd w) c p) q) eqn:E.
  - apply String.eqb_eq in E. left. destruct d as [|d].
    { exfalso. inversion L; subst. eapply Gi; eauto. }
    change (w_fs w') with fs'. unfold nothing_at at 1 2. rewrite E. split.
    + right. right. unfold is_folder, is_file. rewrite No. split; [intros [X|(_ & X & _)]; discriminate|intros [[X|(X & _)] _]; discriminate].
    + right. right. destruct (Un d) as [X|[X|X]]; [| |rewrite Ab in X; exact X];
      (unfold is_folder, is_file; assert (Q : fs_lstat fs' q = Some KReg) by (cbn; rewrite String.eqb_refl; reflexivity);
       rewrite Q; split; [intros [Y|(_ & Y & _)]; discriminate|]; intros [_ [Y|Y]]; [discriminate|congruence]).
  - right. cbn zeta. change (w_fs w') with fs'. set (x := actual (w_cwd w) c p) in *.
    assert (E1 : fs_lstat fs' x = fs_lstat (w_fs w) x) by (cbn; fold q; rewrite E; reflexivity).
    assert (E2 : fs_lines fs' x = fs_lines (w_fs w) x) by (cbn; fold q; rewrite E; reflexivity).
    assert (E3 : fs_listdir fs' x = if String.eqb x f then option_map (cons n) (fs_listdir (w_fs w) x) else fs_listdir (w_fs w) x) by reflexivity.
    split; [exact E1|]. split; [reflexivity|]. split; [exact E2|]. rewrite E3.
    destruct (String.eqb x f) eqn:F.
    + split; intros names k E' I.
      * right. rewrite E'. exists (n :: names). split; [reflexivity|right; exact I].
      * destruct (fs_listdir (w_fs w) x) as [l|] eqn:D; [|discriminate E']. cbn in E'. injection E' as <-.
        destruct I as [<-|I]; [|right; exists l; auto]. left. right. apply String.eqb_eq in F. fold x. rewrite F. exact (Un d).
    + split; intros names k E' I; right; exists names; auto.
Qed.
Print Assumptions c90_new_file.

(** ** A folder with two files, and the same with a hidden folder, a text, a symlinked folder and an excluded file in it. *)
Ltac run := vm_compute; reflexivity.
Definition fs5 : fsys := mkFs
  (fun p => if mem p ["/w"; "/w/d"] then Some KDir else if mem p ["/w/a.py"; "/w/d/b.py"] then Some KReg else None)
  (fun p => None)
  (fun p => if String.eqb p "/w" then Some ["a.py"; "d"] else if String.eqb p "/w/d" then Some ["b.py"] else None)
  (fun p => Some []).
Definition fs6 : fsys := mkFs
  (fun p => if mem p ["/w"; "/w/d"; "/w/.git"] then Some KDir
            else if mem p ["/w/a.py"; "/w/d/b.py"; "/w/.git/c.py"; "/w/README"; "/w/d/test.py"; "/w/l/e.py"] then Some KReg
            else if String.eqb p "/w/l" then Some KLnk else None)
  (fun p => if String.eqb p "/w/l" then Some KDir else None)
  (fun p => if String.eqb p "/w" then Some ["README"; "d"; ".git"; "a.py"; "l"] else if String.eqb p "/w/d" then Some ["test.py"; "b.py"]
            else if String.eqb p "/w/.git" then Some ["c.py"] else if String.eqb p "/w/l" then Some ["e.py"] else None)
  (fun p => if String.eqb p "/w/README" then Some [Some ("About python" +++ nl)] else Some []).
Definition world5 (fs : fsys) : world :=
  mkWorld 4 3 "/w" fs (fun _ => true) contains (fun _ => None) (fun _ => CfgUnreadable) (Ok None)
          (fun p => if String.eqb p "/w/a.py" then files0 "a.py" else if String.eqb p "/w/d/b.py" then files0 "b.py" else FcErr PeValue) all_done no_hooks.
Definition cfg5 : config := w_exclusion_regex_set ["/test"] (default_config 4).
Lemma looked5 : forall d p, looked_at fs5 "/w" contains cfg5 false [] false ["/w"] d p ->
  In (d, p) [(0, "/w"); (1, "/w/a.py"); (1, "/w/d"); (2, "/w/d/b.py")]%nat.
Proof.
  induction 1 as [p I|d p names n L IH N S F E I Hd]; [destruct I as [<-|[]]; left; reflexivity|].
  cbn [In] in IH. destruct IH as [X|[X|[X|[X|[]]]]]; injection X as <- <-; vm_compute in E; try discriminate E; injection E as <-;
    cbn [In] in I; repeat (destruct I as [<-|I]; [vm_compute; auto 6|]); destruct I.
Qed.
Ltac elsewhere := right; eexists; split; [reflexivity|cbn [In]; tauto].
Lemma alike5 : alike_for (world5 fs5) (world5 fs6) cfg5 ["."].
Proof.
  intros d p L _. change (looked_at fs5 "/w" contains cfg5 false [] false ["/w"] d p) in L. apply looked5 in L. cbn [In] in L. right.
  destruct L as [X|[X|[X|[X|[]]]]]; injection X as <- <-; (split; [run|split; [run|split; [run|split]]]); intros names n E I; vm_compute in E; try discriminate E;
    injection E as <-; cbn [In] in I.
  - destruct I as [<-|[<-|[]]]; elsewhere.
  - destruct I as [<-|[<-|[<-|[<-|[<-|[]]]]]].
    + left. right. right. right. split; [intros [X|(_ & X & _)]; vm_compute in X; discriminate X|]. intros [_ [X|X]]; [discriminate X|vm_compute in X; discriminate X].
    + elsewhere.
    + left. left. split; [reflexivity|]. exists "git". reflexivity.
    + elsewhere.
    + left. right. right. right. split; [intros [X|(X & _)]; vm_compute in X; discriminate X|].
      intros [[X|(_ & X)] _]; vm_compute in X; discriminate X.
  - destruct I as [<-|[]]; elsewhere.
  - destruct I as [<-|[<-|[]]]; [|elsewhere]. left. right. left. intros [_ X]. specialize (X "/test" (or_introl eq_refl)). vm_compute in X. discriminate X.
Qed.
Example c90_case : let args := ["--exclude-regex"; "/test"; "-v"; "."] in
  same_machine (world5 fs5) (world5 fs6) /\ alike_for (world5 fs5) (world5 fs6) cfg5 ["."] /\
  found_files (world5 fs5) cfg5 4 ["."] = Some (Ok ["/w/a.py"; "/w/d/b.py"]) /\
  found_files (world5 fs6) cfg5 4 ["."] = Some (Ok ["/w/a.py"; "/w/d/b.py"]) /\
  option_map snd (main (world5 fs5) 4 args) = Some (Ok 0) /\ main (world5 fs6) 4 args = main (world5 fs5) 4 args.
Proof.
  cbv zeta. split; [constructor; reflexivity|]. split; [exact alike5|]. split; [run|]. split; [run|]. split; run.
Qed.
(** A file without an extension that begins with a line for a shell. *)
Example c90_new_file_case : let lines := Some [Some ("#!/bin/sh" +++ nl)] in let w := world5 fs5 in let w' := on_machine w (with_file fs5 "/w/d" "run" lines) (w_file w) in
  fs_lstat fs5 (path_join "/w/d" "run") = None /\ probably_python_file (with_file fs5 "/w/d" "run" lines) (path_join "/w/d" "run") = false /\
  actual "/w" cfg5 (path_join "/w/d" "run") = path_join "/w/d" "run" /\
  (forall p, In p (input_paths w cfg5 ["."]) -> actual "/w" cfg5 p <> path_join "/w/d" "run") /\
  found_files w cfg5 4 ["."] = Some (Ok ["/w/a.py"; "/w/d/b.py"]) /\ found_files w' cfg5 4 ["."] = Some (Ok ["/w/a.py"; "/w/d/b.py"]).
Proof.
  cbv zeta. split; [run|]. split; [run|]. split; [run|]. split; [|split; run]. intros p [<-|[]] X. vm_compute in X. discriminate X.
Qed.
