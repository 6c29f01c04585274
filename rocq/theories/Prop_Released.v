(** C91: the versions that are reported are releases of Python. *)
From Verif Require Import PyBase PyLemmas Utility RulesData Rules Config Formats Paths AstKinds Ast State Visitor
  MinVersions Parser Detection Arguments Pool Processor Main Spec_Base Spec_Utility Spec_Rules Spec_MinVersions Spec_Main Spec_Same Spec_Least Spec_Released
  Proof_Utility Proof_Main Proof_Report Proof_Least Proof_Released Samples Samples_Tips Prop_MinVersions Prop_Visitor Prop_Main Prop_Tips Prop_Whole Prop_Failing Prop_Least.
From Coq Require Import Lia.

(** Every rule that applies asks for releases. *)
Theorem c91_rules : forall bps s m, triggered bps s m -> sayable_mins m.
Proof. exact triggered_say. Qed.
Print Assumptions c91_rules.

(** So does the verdict for what was seen in a source, whatever that is. *)
Theorem c91_source : forall e s m s', minimum_versions e s = Ok (m, s') -> sayable_mins m.
Proof. exact source_say. Qed.
Print Assumptions c91_source.

(** The API for one source. *)
Theorem c91_detect : forall h major c path source p m, api_detect h major c path source p = Ok m -> sayable_mins m.
Proof. exact api_say. Qed.
Print Assumptions c91_detect.

(** A file of a run, also one that cannot be parsed. *)
Theorem c91_file : forall h major c file p how r m,
  snd (process_individual h major c p (file p) how) = Ok (Some r) -> r_mins r = MVers m -> sayable_mins m.
Proof. exact file_say. Qed.
Print Assumptions c91_file.

(** A run over any files with any number of processes: the verdict, and the versions that are listed. *)
Theorem c91_run : forall h major c file how n paths s, snd (process h major c file how n paths) = Ok s ->
  sayable_mins (m_mins s) /\ forall v, In v (m_unique s) -> released v.
Proof. exact process_say. Qed.
Print Assumptions c91_run.

(** A target from the newest release on is met exactly if the code is for that major version. *)
Theorem c91_newest : forall w fuel args c versions files rs,
  0 < w_cpus w -> isabs (w_cwd w) = true -> w_major w <> 2 -> asks w args fuel c versions files -> files <> [] ->
  analysed (w_hooks w) (w_major w) (local_config c) (w_file w) (w_ending w) files rs -> toured rs ->
  exists s, snd (process (w_hooks w) (w_major w) (local_config c) (w_file w) (w_ending w) (c_processes (local_config c)) files) = Ok s /\
    forall args' fuel' c' versions' v, asks w args' fuel' c' versions' files -> same_question c c' -> c_only_show_violations c' = false ->
      c_targets c' = [(false, v)] -> (forall r, released r -> fst r = fst v -> ver_le r v) ->
      (succeeds w fuel' args' <-> for_major (m_mins s) (fst v)).
Proof.
  intros w fuel args c versions files rs Cp Cw M A N An To.
  destruct (one_verdict w fuel args c versions files rs Cp Cw M A N An To) as (s & E & _ & H). exists s. split; [exact E|].
  intros args' fuel' c' versions' v A' S V T Nw. destruct (H args' fuel' c' versions' A' S) as [K Rg]. rewrite T in Rg.
  destruct (Rg _ (or_introl eq_refl)) as [R1 R2]. cbn [snd] in R1, R2. destruct (c91_run _ _ _ _ _ _ _ _ E) as [Sy _].
  rewrite K, (passes_single _ _ _ T V). unfold target_ok. cbn [fst snd].
  apply newest; [exact Sy| |exact Nw]. unfold ver_le in R1. cbn [fst snd] in R1. lia.
Qed.
Print Assumptions c91_newest.

(** No release is missing: each is asked for by the verdict of some source. *)
Definition one_member (v : ver) : string :=
  nth (Z.to_nat (snd v)) (if fst v =? 2
    then ["long"; "xml.dom.DOMException"; "object"; "ConfigParser.RawConfigParser"; "frozenset"; "calendar.Calendar"; "Queue.LifoQueue"; "memoryview"]
    else ["bytearray"; "collections.OrderedDict"; "csv.unix_dialect"; "collections.ChainMap"; "abc.ABC"; "collections.abc.AsyncIterable";
      "collections.abc.Collection"; "asyncio.BufferedProtocol"; "asyncio.ThreadedChildWatcher"; "argparse.BooleanOptionalAction";
      "importlib.metadata.EntryPoints"; "asyncio.Runner"; "calendar.Month"]) "".
Definition member_asks (v : ver) : bool :=
  match minimum_versions env0 (u_members [one_member v] init_st) with
  | Ok (m, _) => existsb (fun o => match o with Some x => veqb x v | None => false end) [fst m; snd m]
  | Err _ => false
  end.
Lemma all_asked : forallb member_asks (map (fun n => (2, Z.of_nat n)) (List.seq 0%nat 8%nat) ++ map (fun n => (3, Z.of_nat n)) (List.seq 0%nat 13%nat)) = true.
Proof. vm_compute. reflexivity. Qed.
Theorem c91_each : forall v, released v -> exists e s m s', minimum_versions e s = Ok (m, s') /\ required m v.
Proof.
  intros v R. assert (A : member_asks v = true).
  { assert (H := all_asked). rewrite forallb_forall in H. apply H. rewrite in_app_iff, !in_map_iff.
    destruct R as [n I|n I]; [left|right]; exists (Z.to_nat n); (split; [rewrite Z2Nat.id by lia; reflexivity|apply in_seq; lia]). }
  unfold member_asks in A. destruct (minimum_versions env0 (u_members [one_member v] init_st)) as [[m s']|] eqn:E; [|discriminate A].
  exists env0, (u_members [one_member v] init_st), m, s'. split; [exact E|]. apply existsb_exists in A as (o & I & A).
  destruct o as [x|]; [|discriminate A]. apply veqb_eq in A. subst x. destruct I as [I|[I|[]]]; [left|right]; exact I.
Qed.
Print Assumptions c91_each.

(** ** argparse (2.7, 3.2) with targets newer than all releases, and what can be said of it *)
Definition newest_args : list (list string) := [["-t=3.12-"]; ["-t=2.7-"]; ["-t=3.99-"]].
Example c91_case : let w := whole_world in let c := whole_config (least_args []) in let rs := whole_results (local_config c) ["/w/a.py"] in
  0 < w_cpus w /\ isabs (w_cwd w) = true /\ w_major w <> 2 /\ asks w (least_args []) 3 c false ["/w/a.py"] /\
  analysed (w_hooks w) (w_major w) (local_config c) (w_file w) (w_ending w) ["/w/a.py"] rs /\ toured rs /\
  (forall t, In t newest_args -> asks w (least_args t) 3 (whole_config (least_args t)) false ["/w/a.py"] /\ same_question c (whole_config (least_args t))) /\
  map (fun t => c_targets (whole_config (least_args t))) newest_args = [[(false, (3, 12))]; [(false, (2, 7))]; [(false, (3, 99))]] /\
  (forall r v, In v [(3, 12); (2, 7); (3, 99)] -> released r -> fst r = fst v -> ver_le r v) /\
  option_map m_mins (match snd (process (w_hooks w) (w_major w) (local_config c) (w_file w) (w_ending w) (c_processes (local_config c)) ["/w/a.py"]) with
    Ok s => Some s | Err _ => None end) = Some (Some (2, 7), Some (3, 2)) /\
  for_major (Some (2, 7), Some (3, 2)) 3 /\ ~ for_major (Some (2, 7), None) 3 /\ ~ for_major (Some (2, 7), Some (0, 0)) 3 /\
  sayable_mins (Some (2, 7), Some (3, 2)) /\ ~ sayable_mins (Some (2, 8), None) /\ ~ sayable_mins (None, Some (3, 13)) /\ ~ sayable_mins (Some (3, 2), None) /\
  map (fun t => option_map snd (main w 3 (least_args t))) newest_args = map (fun n => Some (Ok n)) [0; 0; 0].
Proof.
  cbv zeta. split; [reflexivity|]. split; [reflexivity|]. split; [discriminate|]. split; [exact (proj1 (least_asks [] (or_introl eq_refl)))|]. split; [analyse|].
  split; [intros r I; revert I; vm_compute; intros [I|[]]; injection I as <-; discriminate|].
  split.
  { intros t I. cbn [newest_args In] in I. pose (p := ["Using detected config: /w/vermin.ini"]).
    destruct I as [<-|[<-|[<-|[]]]]; (split; [|apply equal_question; run]); apply (least_ask _ p); run. }
  split; [run|].
  split; [intros r v I R F; cbn [In] in I; destruct I as [<-|[<-|[<-|[]]]]; destruct R; cbn [fst] in F; try discriminate F; right; cbn [fst snd]; lia|].
  split; [run|].
  split; [exists (3, 2); split; [right; reflexivity|reflexivity]|].
  split; [intros (v & [H|H] & F); cbn [fst snd] in H; inversion H; subst; discriminate F|].
  split; [intros (v & [H|H] & F); cbn [fst snd] in H; inversion H; subst; discriminate F|].
  split; [apply saysb_ok; reflexivity|].
  split; [intros [H _]; inversion H as [| |v R F E]; subst; inversion R; lia|].
  split; [intros [_ H]; inversion H as [| |v R F E]; subst; inversion R; lia|].
  split; [intros [H _]; inversion H as [| |v R F E]; subst; discriminate F|].
  run.
Qed.
