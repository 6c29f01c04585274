(** C63: the lines printed about a source explain the verdict on it. *)
From Verif Require Import PyBase PyLemmas Utility RulesData Rules Config Formats Paths AstKinds Ast State Visitor MinVersions
  Spec_Base Spec_Utility Spec_Detection Spec_Formats Spec_Visitor Spec_MinVersions Spec_Explain
  Proof_Utility Proof_Formats Proof_MinVersions Proof_Explain Prop_Visitor Trees.

(** Every line tells of no versions, or of those of a rule that what was found triggers. *)
Theorem c63_lines_true : forall e v s m s', tour e v = Ok s -> minimum_versions e s = Ok (m, s') ->
  c_print_visits (e_cfg e) = false -> forall l, In l (s_out s') ->
  tells_of e None l \/ exists r, triggered (bps_of e) s r /\ tells_of e (Some r) l.
Proof. exact only_told. Qed.
Print Assumptions c63_lines_true.

(** Everything shown: the verdict is the least that is at least as strict as everything the lines
    tell of. Partial: not for a source with [long]. *)
Theorem c63_explained_partial : forall e v s m s', tour e v = Ok s -> minimum_versions e s = Ok (m, s') ->
  outspoken (e_cfg e) -> ~ In FLongV2 (s_flags s) -> c_only_show_violations (e_cfg e) = false ->
  is_join_of (fun r => triggered (bps_of e) s r /\ explained e (s_out s') r) m.
Proof. exact explained_join. Qed.
Print Assumptions c63_explained_partial.

(** The same in what a program reads from the parsable lines alone. *)
Theorem c63_read_partial : forall e v s m s', tour e v = Ok s -> minimum_versions e s = Ok (m, s') ->
  no_char ":" (e_path e) -> no_char (ascii_of_nat 10) (e_path e) -> c_format (e_cfg e) = FParsable -> 3 <= c_verbose (e_cfg e) ->
  c_print_visits (e_cfg e) = false -> c_only_show_violations (e_cfg e) = false -> ~ In FLongV2 (s_flags s) ->
  (forall r, read_off (output_lines e s') r -> triggered (bps_of e) s r) /\ is_join_of (read_off (output_lines e s')) m.
Proof. exact read_join. Qed.
Print Assumptions c63_read_partial.

(** Only violations shown: the verdict is above a target exactly when some line tells of something
    that is. *)
Theorem c63_violations_partial : forall e v s m s', tour e v = Ok s -> minimum_versions e s = Ok (m, s') ->
  outspoken (e_cfg e) -> c_only_show_violations (e_cfg e) = true -> targets_in_scope (c_targets (e_cfg e)) ->
  ~ In FLongV2 (s_flags s) -> forall x t, In (x, t) (c_targets (e_cfg e)) ->
  (above m t <-> exists r, above r t /\ triggered (bps_of e) s r /\ explained e (s_out s') r).
Proof. exact violations_told. Qed.
Print Assumptions c63_violations_partial.

(** A configuration whose lines are parsable, and one that shows only violations. *)
Definition env_parsable : env := mkEnv (w_verbose 3 (w_format FParsable (default_config 1))) "a.py" None [] (fun _ _ => Ok false) (fun _ => "").
Definition env_violations : env := mkEnv (w_only_show_violations true (w_targets [(true, (3, 7))] (w_verbose 3 (default_config 1))))
  "a.py" None [] (fun _ _ => Ok false) (fun _ => "").
Definition verdict_of (e : env) (v : pyval) : res (mins * st) := bindr (tour e v) (minimum_versions e).
Definition lines_of (e : env) (v : pyval) : list string := match verdict_of e v with Ok (m, s) => output_lines e s | Err _ => [] end.
Definition mins_of (e : env) (v : pyval) : option mins := match verdict_of e v with Ok (m, _) => Some m | Err _ => None end.

Example c63_case : mins_of env_parsable tree_features = Some (None, Some (3, 8)) /\
  lines_of env_parsable tree_features =
  ["a.py:::2.0:3.0:print(expr)"; "a.py:1::!2:3.5:coroutines (async)"; "a.py:1::!2:3.0:keyword-only parameters";
   "a.py:1::!2:3.6:async generators (await and yield in same func)"; "a.py:2::!2:3.6:f-strings";
   "a.py:2::!2:3.5:coroutines (await)"; "a.py:2::!2:3.8:named expressions";
   "a.py:3::2.6:3.0:byte string (b'..') or `str` synonym"; "a.py:3::!2:3.0:ellipsis literal (`...`) out of slices"] /\
  c_format (e_cfg env_parsable) = FParsable /\ 3 <= c_verbose (e_cfg env_parsable) /\ outspoken (e_cfg env_parsable) /\
  no_char ":" (e_path env_parsable) /\ no_char (ascii_of_nat 10) (e_path env_parsable) /\
  c_print_visits (e_cfg env_parsable) = false /\ c_only_show_violations (e_cfg env_parsable) = false /\
  exists s, tour env_parsable tree_features = Ok s /\ ~ In FLongV2 (s_flags s).
Proof.
  split; [run|]. split; [run|]. split; [reflexivity|]. split; [cbn; lia|]. split; [split; [left; reflexivity|cbn; lia]|].
  split; [apply Proof_Detection.no_char_spec; reflexivity|]. split; [apply Proof_Detection.no_char_spec; reflexivity|].
  split; [reflexivity|]. split; [reflexivity|]. ok. vm_compute. intuition discriminate.
Qed.

(** The same source against the target 3.7: of all findings, those that rule it out. *)
Example c63_violations_case : mins_of env_violations tree_features = Some (None, Some (3, 8)) /\
  lines_of env_violations tree_features = ["L2: named expressions require !2, 3.8"] /\
  outspoken (e_cfg env_violations) /\ targets_in_scope (c_targets (e_cfg env_violations)) /\
  above (None, Some (3, 8)) (3, 7).
Proof.
  split; [run|]. split; [run|]. split; [split; [right; reflexivity|cbn; lia]|]. split.
  - left. exists true, (3, 7). auto.
  - unfold above, ver_lt. cbn. lia.
Qed.

(** [long]: the verdict rules Python 3 out, and the line about it tells of no versions; the parsable
    lines give no reason for the verdict. *)
Theorem c63_long_refuted : exists e v s m s', tour e v = Ok s /\ minimum_versions e s = Ok (m, s') /\
  c_format (e_cfg e) = FParsable /\ outspoken (e_cfg e) /\ c_only_show_violations (e_cfg e) = false /\
  m = (Some (2, 0), None) /\ output_lines e s' = ["a.py:3::::long is a v2 feature"] /\ forall r, ~ read_off (output_lines e s') r.
Proof.
  set (v := nth 2 (items "body" tree_exclusions) VNone).
  exists env_parsable, v, (ended (tour env_parsable v)), (Some (2, 0), None),
    (match verdict_of env_parsable v with Ok (_, s) => s | Err _ => init_st end).
  split; [run|]. split; [run|]. split; [reflexivity|]. split; [split; [left; reflexivity|cbn; lia]|]. split; [reflexivity|].
  split; [reflexivity|].
  assert (L : output_lines env_parsable (match verdict_of env_parsable v with Ok (_, s) => s | Err _ => init_st end) =
    ["a.py:3::::long is a v2 feature"]) by run.
  split; [exact L|]. rewrite L. intros r R. apply (reads_told env_parsable _ r None) in R; [discriminate|..].
  - apply Proof_Detection.no_char_spec. reflexivity.
  - apply Proof_Detection.no_char_spec. reflexivity.
  - reflexivity.
  - exists "long is a v2 feature", (Some 3), None, None. reflexivity.
Qed.
Print Assumptions c63_long_refuted.
