(** C83: the ways to give files to a run. *)
From Verif Require Import PyBase PyLemmas Utility RulesData Rules Config Formats Paths Pool Detection AstKinds Ast State Visitor MinVersions Parser
  Arguments Processor Main Spec_Base Spec_Detection Spec_Given Proof_Detection Proof_Given Prop_Visitor Prop_Detection Prop_Main Prop_Tips Prop_Whole.

(** Given by folder, by name, both, in any order or repeatedly: the same files are analysed. *)
Theorem c83_same_files : forall w c fuel fuel' paths files paths' r,
  (c_make_paths_absolute c = true -> isabs (w_cwd w) = true /\ plain_listings (w_fs w)) ->
  found_files w c fuel paths = Some (Ok files) -> other_way c (w_cwd w) paths files paths' ->
  found_files w c fuel' paths' = Some r -> r = Ok files.
Proof. intros w c fuel fuel' paths files paths' r A H O R. exact (other_same w c A _ _ _ _ _ _ H O R). Qed.
Print Assumptions c83_same_files.

(** The files a run found, given by name, are what another run finds, without looking into folders. *)
Theorem c83_listed : forall w c fuel k paths files,
  (c_make_paths_absolute c = true -> isabs (w_cwd w) = true /\ plain_listings (w_fs w)) ->
  found_files w c fuel paths = Some (Ok files) -> found_files w c (S (S k)) files = Some (Ok files).
Proof. intros w c fuel k paths files A H. exact (files_found w c A _ _ _ _ H). Qed.
Print Assumptions c83_listed.

(** Giving more paths finds what each finds. *)
Theorem c83_union : forall w c fuel1 fuel2 fuel paths1 paths2 l1 l2 l,
  found_files w c fuel1 paths1 = Some (Ok l1) -> found_files w c fuel2 paths2 = Some (Ok l2) -> found_files w c fuel (paths1 ++ paths2) = Some (Ok l) ->
  forall q, In q l <-> In q l1 \/ In q l2.
Proof.
  intros w c fuel1 fuel2 fuel paths1 paths2 l1 l2 l H1 H2 H q.
  rewrite (found_iff _ _ _ _ _ H), (found_iff _ _ _ _ _ H1), (found_iff _ _ _ _ _ H2). apply finds_app.
Qed.
Print Assumptions c83_union.

(** So a whole run prints the same and ends the same. *)
Theorem c83_main : forall w fuel fuel' args args' c paths paths' versions printed files o,
  parse (w_cpus w) (w_re_ok w) (w_excl_file w) (w_cwd w) (w_cfg_file w) (w_detected w) args (default_config (w_cpus w)) = Ok (c, OPaths paths versions printed) ->
  parse (w_cpus w) (w_re_ok w) (w_excl_file w) (w_cwd w) (w_cfg_file w) (w_detected w) args' (default_config (w_cpus w)) = Ok (c, OPaths paths' versions printed) ->
  (c_make_paths_absolute c = true -> isabs (w_cwd w) = true /\ plain_listings (w_fs w)) ->
  found_files w c fuel paths = Some (Ok files) -> other_way c (w_cwd w) paths files paths' ->
  main w fuel' args' = Some o -> main w fuel args = Some o.
Proof.
  intros w fuel fuel' args args' c paths paths' versions printed files o P P' A F O H. unfold main in *. rewrite P. rewrite P' in H. rewrite F.
  destruct (found_files w c fuel' paths') as [r|] eqn:F'; [|discriminate H].
  rewrite (other_same w c A _ _ _ _ _ _ F O F') in H. exact H.
Qed.
Print Assumptions c83_main.

(** ** A folder with a folder and three files, given in two ways. *)
Definition given_world : world :=
  mkWorld 4 3 "/w" fs1 (fun _ => true) (fun _ _ => false) (fun _ => None) (fun _ => CfgSection (section_of 4 [])) (Ok None)
          (fun p => if String.eqb p "/w/a.py" then tip_files "a.py" else tip_files "two.py") all_done no_hooks.
Definition given_paths : list string := ["d/x.txt"; "."].
Definition given_others : list string := ["d/b.PY"; "./a.py"; "d/../d/x.txt"; "/w/d/run"; "a.py"].
Definition given_files : list string := ["/w/a.py"; "/w/d/b.PY"; "/w/d/run"; "/w/d/x.txt"].
Lemma fs1_plain : plain_listings fs1.
Proof.
  intros d names n L I.
  assert (In n ["a.py"; ".h.py"; "d"; "l"; "b.PY"; "run"; "x.txt"; "c.py"]).
  { unfold fs1 in L. cbn [fs_listdir] in L. destruct (String.eqb d "/w"); [injection L as <-; cbn in *; tauto|].
    destruct (String.eqb d "/w/d"); [injection L as <-; cbn in *; tauto|]. destruct (String.eqb d "/w/l"); [injection L as <-; cbn in *; tauto|discriminate L]. }
  assert (N : forall s, existsb (Ascii.eqb "/") (list_ascii_of_string s) = false -> no_char "/" s).
  { intros s E a b ->. induction a as [|x a IH]; cbn in E; [discriminate|]. apply orb_false_iff in E as [_ E]. exact (IH E). }
  cbn in H. repeat (destruct H as [<-|H]; [split; [discriminate|]; split; [discriminate|]; split; [discriminate|]; apply N; reflexivity|]). destruct H.
Qed.
Example c83_case : let w := given_world in let c := default_config 4 in
  isabs (w_cwd w) = true /\ plain_listings (w_fs w) /\ found_files w c 4 given_paths = Some (Ok given_files) /\
  other_way c (w_cwd w) given_paths given_files given_others /\ found_files w c 2 given_others = Some (Ok given_files) /\
  option_map snd (main w 4 ("-v" :: given_paths)) = Some (Ok 0) /\ main w 2 ("-v" :: given_others) = main w 4 ("-v" :: given_paths).
Proof.
  cbv zeta. split; [reflexivity|]. split; [exact fs1_plain|]. split; [run|]. split; [|split; [run|split; [run|run]]]. split.
  - assert (K : forall p, In p given_others -> In (abspath "/w" p) given_files).
    { apply Forall_forall. repeat (constructor; [apply mem_In; run|]). constructor. }
    intros p I. right. exists (abspath "/w" p). split; [reflexivity|exact (K p I)].
  - right. intros q I. assert (K : exists p, In p given_others /\ q = abspath "/w" p).
    { cbn [given_files In] in I. destruct I as [<-|[<-|[<-|[<-|[]]]]]; [exists "a.py"|exists "d/b.PY"|exists "/w/d/run"|exists "d/../d/x.txt"]; (split; [cbn; tauto|run]). }
    exact K.
Qed.

(** With paths that are not made absolute, one file spelled in two ways is two files. *)
Theorem c83_spelling_refuted : exists w c fuel, c_make_paths_absolute c = false /\ abspath (w_cwd w) "d//b.py" = abspath (w_cwd w) "d/b.py" /\
  found_files w c fuel ["d//b.py"; "d/b.py"] = Some (Ok ["d//b.py"; "d/b.py"]).
Proof.
  exists (mkWorld 4 3 "/w" (mkFs (fun p => if mem p ["d//b.py"; "d/b.py"; "/w/d/b.py"] then Some KReg else None) (fun _ => None) (fun _ => None) (fun _ => None))
            (fun _ => true) (fun _ _ => false) (fun _ => None) (fun _ => CfgSection (section_of 4 [])) (Ok None) (fun _ => tip_files "a.py") all_done no_hooks),
    (w_make_paths_absolute false (default_config 4)), 3%nat.
  split; [reflexivity|]. split; run.
Qed.
Print Assumptions c83_spelling_refuted.
