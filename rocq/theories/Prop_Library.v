(** C81: the library functions and the program agree. *)
From Verif Require Import PyBase PyLemmas Utility RulesData Rules Config Formats Paths AstKinds Ast State Visitor MinVersions
  Parser Detection Arguments Processor Main Spec_Base Spec_Utility Spec_MinVersions Spec_Main Spec_Same Spec_Valid Spec_Targets Spec_Library
  Proof_MinVersions Proof_Verdict Proof_Library Samples Prop_Visitor Prop_Main Prop_Whole Prop_Targets.

(** The verdict on a source depends on its text, not on where it is or what the file is called. *)
Theorem c81_moved : forall sd d d' major c path path' source p p', targets_given c ->
  path_ok c (api_path path) = true -> path_ok c (api_path path') = true ->
  same_parse p p' ->
  same_mins (api_detect (mkHooks sd d) major c path source p) (api_detect (mkHooks sd d') major c path' source p').
Proof. intros. apply detect_moved; assumption. Qed.
Print Assumptions c81_moved.

(** For one file the program says what the library says of its source. *)
Theorem c81_program : forall h major c path source p, due_to_text p ->
  agree (api_detect h major c (Some path) source p) (snd (process_individual h major c path (FcSource source p) EndDone)).
Proof. exact program_agrees. Qed.
Print Assumptions c81_program.

(** For many, it says what the verdicts of the library require together. *)
Theorem c81_files : forall h major c file how files rs n, targets_given c -> (forall p, In p files -> path_ok c p = true) ->
  (forall p, In p files -> how p = EndDone) -> analysed h major c file how files rs -> 1 <= n ->
  let among := library_among h major c file files in
  c_ignore_incomp c = true \/ (forall a b, among a -> among b -> ~ clashing a b) ->
  exists out s, process h major c file how n files = (out, Ok s) /\ is_join_of among (m_mins s).
Proof. intros [sd d] major c file how files rs n T P W A N among C. eapply run_join; eauto. repeat split; auto. Qed.
Print Assumptions c81_files.

(** And its exit code tells whether that fits the targets. *)
Theorem c81_main : forall w fuel args c paths versions printed files rs, 0 < w_cpus w -> isabs (w_cwd w) = true -> w_major w <> 2 ->
  parse (w_cpus w) (w_re_ok w) (w_excl_file w) (w_cwd w) (w_cfg_file w) (w_detected w) args (default_config (w_cpus w))
    = Ok (c, OPaths paths versions printed) ->
  found_files w c fuel paths = Some (Ok files) -> (forall p, In p files -> w_ending w p = EndDone) ->
  analysed (w_hooks w) (w_major w) (local_config c) (w_file w) (w_ending w) files rs ->
  let among := library_among (w_hooks w) (w_major w) c (w_file w) files in
  c_ignore_incomp c = true \/ (forall a b, among a -> among b -> ~ clashing a b) ->
  exists out code m, main w fuel args = Some (out, Ok code) /\ (code = 0 \/ code = 1) /\ is_join_of among m /\ (code = 0 <-> files <> [] /\ passes c m).
Proof. exact main_library. Qed.
Print Assumptions c81_main.

(** ** Cases *)
Definition moved_parse (f : string) : parsed := PErr (PeSyntax (mkSyn (Some "print 1") "Missing parentheses in call to 'print'" f "1" "0")).
Example c81_moved_case :
  same_parse (moved_parse "/w/a.py") (moved_parse "<unknown>") /\
  path_ok cfg0 "/w/a.py" = true /\ targets_given cfg0 /\
  api_detect no_hooks 3 cfg0 (Some "/w/a.py") "print 1" (moved_parse "/w/a.py") = api_detect no_hooks 3 cfg0 None "print 1" (moved_parse "<unknown>") /\
  api_detect no_hooks 3 cfg0 None src_walrus sample_walrus = Ok (None, Some (3, 8)).
Proof.
  split; [constructor; constructor|]. split; [reflexivity|]. split; [intros H; discriminate H|]. split; vm_compute; reflexivity.
Qed.

Example c81_files_case : due_to_text sample_walrus /\
  analysed no_hooks 3 cfg0 files0 all_done ["a.py"; "b.py"; "bin"; "gone"] (results cfg0 ["a.py"; "b.py"; "bin"; "gone"]) /\
  (forall p, In p ["a.py"; "b.py"; "bin"; "gone"] -> path_ok cfg0 p = true /\ all_done p = EndDone) /\
  library_says no_hooks 3 cfg0 files0 "a.py" (Some (2, 7), Some (3, 2)) /\ library_says no_hooks 3 cfg0 files0 "b.py" (None, Some (3, 8)) /\
  option_map m_mins (match snd (process no_hooks 3 cfg0 files0 all_done 4 ["a.py"; "b.py"; "bin"; "gone"]) with Ok s => Some s | Err _ => None end)
    = Some (None, Some (3, 8)).
Proof.
  split; [intros x [E|[v E]]; vm_compute in E; discriminate E|]. split; [analyse|].
  split; [intros p I; repeat (destruct I as [<-|I]; [split; reflexivity|]); contradiction I|].
  split; [|split].
  - exists src_argparse, sample_argparse, (Some "a.py"), sample_argparse. split; [reflexivity|]. split; [constructor|]. split; vm_compute; reflexivity.
  - exists src_walrus, sample_walrus, (Some "b.py"), sample_walrus. split; [reflexivity|]. split; [constructor|]. split; vm_compute; reflexivity.
  - vm_compute. reflexivity.
Qed.

Example c81_main_case : let w := whole_world in let c := whole_config two_args in let lc := local_config c in
  parse (w_cpus w) (w_re_ok w) (w_excl_file w) (w_cwd w) (w_cfg_file w) (w_detected w) two_args (default_config (w_cpus w))
    = Ok (c, OPaths ["a.py"] false ["Using detected config: /w/vermin.ini"]) /\
  found_files w c 3 ["a.py"] = Some (Ok ["/w/a.py"]) /\ isabs (w_cwd w) = true /\ w_ending w "/w/a.py" = EndDone /\
  analysed (w_hooks w) (w_major w) lc (w_file w) (w_ending w) ["/w/a.py"] (whole_results lc ["/w/a.py"]) /\
  (forall a b, library_among (w_hooks w) (w_major w) c (w_file w) ["/w/a.py"] a ->
     library_among (w_hooks w) (w_major w) c (w_file w) ["/w/a.py"] b -> ~ clashing a b) /\
  library_says (w_hooks w) (w_major w) c (w_file w) "/w/a.py" (Some (2, 7), Some (3, 2)) /\
  option_map snd (main w 3 two_args) = Some (Ok 0).
Proof.
  cbv zeta. split; [run|]. split; [run|]. split; [run|]. split; [run|]. split; [analyse|].
  assert (L : forall m, library_says (w_hooks whole_world) 3 (whole_config two_args) (w_file whole_world) "/w/a.py" m -> m = (Some (2, 7), Some (3, 2))).
  { intros m H. change (w_hooks whole_world) with (mkHooks (fun _ _ => Ok false) (fun _ => "")) in H.
    eapply (says_iff _ _ (fun _ => "") 3 _ (whole_config two_args)) in H; [|repeat split; auto|reflexivity|intros X; vm_compute in X; discriminate X|intros X; vm_compute in X; discriminate X|run].
    destruct H as (s & t & F & E). change (w_file whole_world "/w/a.py") with (FcSource src_argparse sample_argparse) in F. injection F as <- <-. vm_compute in E. injection E as <-. reflexivity. }
  split; [intros a b (p & [<-|[]] & Ha) (q & [<-|[]] & Hb); rewrite (L a Ha), (L b Hb); intros [[X Y]|[X Y]]; destruct X as [X1 X2]; cbn in X1, X2; congruence|].
  split; [|run].
  exists src_argparse, sample_argparse, (Some "/w/a.py"), sample_argparse. split; [reflexivity|]. split; [constructor|]. split; vm_compute; reflexivity.
Qed.

(** Not even for a module that defines __dir__: in an __init__.py it is said to need 3.7, but that is not required. *)
Definition dir_module : parsed := PTree (VNode KModule 1%N None [("body", (VList [(VNode KFunctionDef 22%N (Some (1, 0)) [("name", (VStr "__dir__"));
  ("args", (VNode Karguments 23%N None [("posonlyargs", (VList [])); ("args", (VList [])); ("vararg", VNone); ("kwonlyargs", (VList [])); ("kw_defaults", (VList [])); ("kwarg", VNone); ("defaults", (VList []))]));
  ("body", (VList [(VNode KPass 24%N (Some (1, 15)) [])])); ("decorator_list", (VList [])); ("returns", VNone); ("type_comment", VNone)])])); ("type_ignores", (VList []))]) (inr []).
Example c81_init_case : let told p := snd (process_individual no_hooks 3 (w_verbose 2 cfg0) p (FcSource "def __dir__(): pass" dir_module) EndDone) in
  (exists r, told "a/__init__.py" = Ok (Some r) /\ r_mins r = MVers zero_mins /\ r_text r = "module `__dir__()` supported by `dir()` since 3.7" +++ nl) /\
  (exists r, told "a/b.py" = Ok (Some r) /\ r_mins r = MVers zero_mins /\ r_text r = "").
Proof. cbv zeta. split; eexists; (split; [vm_compute; reflexivity|]); split; vm_compute; reflexivity. Qed.

(** When reading a file fails in another way, the library raises, and the program goes on as if the file had no requirements. *)
Theorem c81_failing_refuted : exists path source p x, api_detect no_hooks 3 cfg0 (Some path) source p = Err (exn_of x) /\
  exists r, snd (process_individual no_hooks 3 cfg0 path (FcSource source p) EndDone) = Ok (Some r) /\ r_mins r = MVers zero_mins.
Proof. exists "deep.py", "((((", (PErr (PeOther "<class 'MemoryError'>, ")), (PeOther "<class 'MemoryError'>, "). split; [reflexivity|]. eexists. split; reflexivity. Qed.
Print Assumptions c81_failing_refuted.
