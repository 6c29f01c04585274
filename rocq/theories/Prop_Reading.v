(** C71: the parsable output of a run can be read line by line. *)
From Verif Require Import PyBase PyLemmas Utility RulesData Rules Config Formats Paths AstKinds Ast State Visitor
  MinVersions Parser Detection Arguments Pool Processor Main Usage Messages Spec_Base Spec_Utility Spec_Rules Spec_Config
  Spec_Detection Spec_Formats Spec_MinVersions Spec_Main Spec_Explain Spec_Messages Spec_Reading
  Proof_Strings Proof_Detection Proof_Formats Proof_Main Proof_Args Proof_Messages Proof_Reading Prop_Visitor Prop_Main Prop_Options Samples.

(** A line can be read in one way only. *)
Theorem c71_one_reading : forall p m p' m' line, result_line p m line -> result_line p' m' line -> m = m' /\ p = p'.
Proof.
  intros p m p' m' line R R'. split; [eapply result_inj; eassumption|].
  destruct R as (_ & v2 & v3 & (E & P & _) & _), R' as (_ & v2' & v3' & (E' & P' & _) & _).
  rewrite E in E'. clear - E' P P'.
  assert (X : forall a b r r', no_char ":" a -> no_char ":" b -> a +++ ":" +++ r = b +++ ":" +++ r' -> a = b).
  { induction a as [|x a IH]; intros [|y b] r r' A B E; [reflexivity| | |].
    - injection E as E _. exfalso. apply (B "" b). rewrite <- E. reflexivity.
    - injection E as E _. exfalso. apply (A "" a). rewrite E. reflexivity.
    - injection E as -> E. f_equal. apply (IH b r r'); [intros u v Q; apply (A (String y u) v); rewrite Q; reflexivity
        |intros u v Q; apply (B (String y u) v); rewrite Q; reflexivity|exact E]. }
  exact (X p p' _ _ P P' E').
Qed.
Print Assumptions c71_one_reading.

(** The findings of a file: lines of six fields about it, and what they say adds up to its versions. *)
Theorem c71_findings : forall h major c file, c_format c = FParsable -> c_print_visits c = false ->
  forall p how r m, no_char ":" p -> no_char (ascii_of_nat 10) p -> (forall t, ~ fails major c file p (PeOther t)) ->
  snd (process_individual h major c p (file p) how) = Ok (Some r) -> r_mins r = MVers m ->
  exists ls, r_text r = lines_text ls /\ Forall (finding_line p) ls /\
    forall source ps node nov e s, file p = FcSource source ps -> parser_detect major c ps = DTree node nov ->
      make_visitor h c p source nov = Ok e -> tour e node = Ok s -> ~ In FLongV2 (s_flags s) ->
      3 <= c_verbose c -> c_only_show_violations c = false -> is_join_of (read_off ls) m.
Proof. intros h major c file F V p how r m. exact (file_findings h major c file F V p how r m). Qed.
Print Assumptions c71_findings.

(** The run: the blocks of all files in order, then one line with the versions of the run. *)
Theorem c71_main_partial : forall w prog err_text fuel args c paths versions printed files rs,
  parse (w_cpus w) (w_re_ok w) (w_excl_file w) (w_cwd w) (w_cfg_file w) (w_detected w) args (default_config (w_cpus w))
    = Ok (c, OPaths paths versions printed) ->
  In "--format" args \/ In "-f" args -> c_format c = FParsable -> c_print_visits c = false ->
  unread (w_excl_file w) args = [] -> isabs (w_cwd w) = true ->
  found_files w c fuel paths = Some (Ok files) -> files <> [] ->
  analysed (w_hooks w) (w_major w) (local_config c) (w_file w) (w_ending w) files rs -> toured rs -> 1 <= c_processes c ->
  (forall p t, In p files -> ~ fails (w_major w) (local_config c) (w_file w) p (PeOther t)) ->
  exists s out code,
    snd (process (w_hooks w) (w_major w) (local_config c) (w_file w) (w_ending w) (c_processes (local_config c)) files) = Ok s /\
    whole_main w prog err_text fuel args = Some (out, Ok code) /\ readable c files rs (m_mins s) out.
Proof. exact main_readable. Qed.
Print Assumptions c71_main_partial.

(** Files whose path would break a line are not analysed. *)
Theorem c71_paths : forall w c fuel paths l, isabs (w_cwd w) = true -> c_format c = FParsable ->
  found_files w c fuel paths = Some (Ok l) -> forall p, In p l -> no_char ":" p /\ no_char (ascii_of_nat 10) p.
Proof. exact found_clean. Qed.
Print Assumptions c71_paths.

(** The lines about syntax errors that workers write themselves. *)
Theorem c71_syntax : forall major c p se, c_format c = FParsable -> se_filename se = p -> no_char ":" p -> no_char (ascii_of_nat 10) p ->
  no_char ":" (se_lineno se) -> no_char (ascii_of_nat 10) (se_lineno se) ->
  no_char ":" (se_offset se) -> no_char (ascii_of_nat 10) (se_offset se) -> no_char (ascii_of_nat 10) (se_msg se) ->
  forall l, In l (snd (syntax_verdict major c se)) ->
  no_char (ascii_of_nat 10) l /\ exists v2 v3 f, fields l p (se_lineno se) (se_offset se) v2 v3 f /\
    writes 2 (fst (fst (syntax_verdict major c se))) v2 /\ writes 3 (snd (fst (syntax_verdict major c se))) v3.
Proof. exact syntax_readable. Qed.
Print Assumptions c71_syntax.

(** ** A concrete case: two files *)
Definition read_stat (p : string) : option fkind := if mem p ["/w/a.py"; "/w/b.py"; "/w/gone.py"] then Some KReg else None.
Definition read_source (p : string) : fcontent :=
  if String.eqb p "/w/a.py" then files0 "a.py" else if String.eqb p "/w/b.py" then files0 "b.py" else files0 "gone".
Definition read_world : world :=
  mkWorld 4 3 "/w" (mkFs read_stat read_stat (fun _ => None) (fun _ => None)) (fun _ => true)
          (fun _ _ => false) (fun _ => None) (fun _ => CfgUnreadable) (Ok None) read_source all_done no_hooks.
Definition read_args : list string := ["-f"; "parsable"; "/w/b.py"; "/w/a.py"].
Definition read_config (args : list string) : config :=
  match parse 4 (fun _ => true) (fun _ => None) "/w" (fun _ => CfgUnreadable) (Ok None) args (default_config 4) with
  | Ok (c, _) => c | Err _ => cfg0 end.
Definition read_results (c : config) (paths : list string) : list (option presult) :=
  flat_map (fun p => match snd (process_individual no_hooks 3 c p (read_source p) EndDone) with Ok r => [r] | Err _ => [] end) paths.

Example c71_case :
  let w := read_world in let c := read_config read_args in let files := ["/w/a.py"; "/w/b.py"] in
  let rs := read_results (local_config c) files in
  parse (w_cpus w) (w_re_ok w) (w_excl_file w) (w_cwd w) (w_cfg_file w) (w_detected w) read_args (default_config (w_cpus w))
    = Ok (c, OPaths ["/w/b.py"; "/w/a.py"] false []) /\
  c_format c = FParsable /\ c_print_visits c = false /\ unread (w_excl_file w) read_args = [] /\ isabs (w_cwd w) = true /\
  found_files w c 3 ["/w/b.py"; "/w/a.py"] = Some (Ok files) /\
  analysed (w_hooks w) (w_major w) (local_config c) (w_file w) (w_ending w) files rs /\ toured rs /\ 1 <= c_processes c /\
  (forall p t, In p files -> ~ fails (w_major w) (local_config c) (w_file w) p (PeOther t)) /\
  whole_main w "vermin" (fun f => f) 3 read_args = Some (lines_text
    ["/w/a.py:1:7:2.7:3.2:'argparse' module"; "/w/a.py:::2.7:3.2:"; "/w/b.py:1::!2:3.8:named expressions"; "/w/b.py:::!2:3.8:"; ":::!2:3.8:"], Ok 0).
Proof.
  cbv zeta. split; [run|]. split; [run|]. split; [run|]. split; [run|]. split; [run|]. split; [run|]. split; [analyse|].
  split.
  { intros r I. revert I. vm_compute. intros [E|[E|[]]]; injection E as <-; discriminate. }
  split; [vm_compute; discriminate|]. split; [|run].
  intros p t [<-|[<-|[]]] F; inversion F as [x E|so ps x E D]; subst; cbn in E; try discriminate E;
    injection E as <- <-; revert D; vm_compute; discriminate.
Qed.

(** False of the code: what is said of a file that cannot be read does not end its line, so the versions of the
    file follow on the same line, and no line gives them. *)
Theorem c71_unreadable_refuted : exists w args out ls,
  whole_main w "vermin" (fun f => f) 3 args = Some (out, Ok 0) /\ In "-f" args /\
  found_files w (read_config args) 3 ["/w/gone.py"] = Some (Ok ["/w/gone.py"]) /\
  out = lines_text ls /\ Forall (no_char (ascii_of_nat 10)) ls /\
  (forall l, In l ls -> String.prefix "/w/gone.py" l = true -> forall m, ~ result_line "/w/gone.py" m l) /\
  exists l, In l ls /\ String.prefix "/w/gone.py" l = true.
Proof.
  exists read_world, ["-f"; "parsable"; "/w/gone.py"].
  eexists. exists ["/w/gone.py: [Errno 13] Permission denied/w/gone.py:::~2:~3:"; ":::~2:~3:"].
  split; [run|]. split; [left; reflexivity|]. split; [run|]. split; [run|]. split.
  { constructor; [apply no_char_spec; reflexivity|]. constructor; [apply no_char_spec; reflexivity|]. constructor. }
  split; [|eexists; split; [left; reflexivity|reflexivity]].
  intros l [<-|[<-|[]]] P m (_ & v2 & v3 & (E & _) & _); [|discriminate P].
  discriminate E.
Qed.
Print Assumptions c71_unreadable_refuted.

(** Nor can what is said when no file was found. *)
Theorem c71_no_files_refuted : exists w args l,
  whole_main w "vermin" (fun f => f) 3 args = Some (lines_text [l], Ok 1) /\ In "-f" args /\ forall p m, ~ result_line p m l.
Proof.
  exists read_world, ["-f"; "parsable"; "/w/no.py"], "No files specified to analyze!".
  split; [run|]. split; [left; reflexivity|]. intros p m (_ & v2 & v3 & (E & _) & _).
  assert (I : In ":"%char (list_ascii_of_string "No files specified to analyze!")).
  { rewrite E. clear E. induction p as [|x p IH]; [left; reflexivity|]. right. exact IH. }
  cbn in I. repeat (destruct I as [I|I]; [discriminate I|]). exact I.
Qed.
Print Assumptions c71_no_files_refuted.
