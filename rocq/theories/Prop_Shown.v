(** C80: every way to show the findings shows the same ones. *)
From Verif Require Import PyBase PyLemmas Utility RulesData Rules Config Formats Paths Arguments AstKinds Ast State Visitor MinVersions
  Spec_Base Spec_Utility Spec_Detection Spec_Formats Spec_Visitor Spec_MinVersions Spec_Same Spec_Explain Spec_Shown
  Proof_Utility Proof_Formats Proof_MinVersions Proof_Shown Prop_Visitor Prop_Explain Trees.

(** Two analyses of a source that look for the same: whatever the formats and verbosities, there is one list of things to
    tell, and what each of them writes down is what its format and verbosity make of that list. *)
Theorem c80_findings : forall c c' path src nov sd d v s s' m t m' t',
  same_search c c' ->
  tour (mkEnv c path src nov sd d) v = Ok s -> tour (mkEnv c' path src nov sd d) v = Ok s' ->
  minimum_versions (mkEnv c path src nov sd d) s = Ok (m, t) -> minimum_versions (mkEnv c' path src nov sd d) s' = Ok (m', t') ->
  m = m' /\ exists l, renders c path l (s_out t) /\ renders c' path l (s_out t').
Proof. intros c c' path src nov sd d v s s' m t m' t' S. apply shown_same; assumption. Qed.
Print Assumptions c80_findings.

(** In what is printed of a file at last: a line is there exactly when it is the line of something to tell that is to be
    shown. *)
Theorem c80_printed : forall c c' path src nov sd d v s s' m t m' t',
  same_search c c' -> c_print_visits c = false -> c_print_visits c' = false ->
  tour (mkEnv c path src nov sd d) v = Ok s -> tour (mkEnv c' path src nov sd d) v = Ok s' ->
  minimum_versions (mkEnv c path src nov sd d) s = Ok (m, t) -> minimum_versions (mkEnv c' path src nov sd d) s' = Ok (m', t') ->
  exists told : finding -> Prop,
    (forall x, In x (output_lines (mkEnv c path src nov sd d) t) <-> exists f, told f /\ is_shown c f /\ line_of c path f x) /\
    (forall x, In x (output_lines (mkEnv c' path src nov sd d) t') <-> exists f, told f /\ is_shown c' f /\ line_of c' path f x).
Proof.
  intros c c' path src nov sd d v s s' m t m' t' S P P' T T' M M'.
  destruct (shown_same c c' path src nov sd d S v s s' m t m' t' T T' M M') as (_ & l & R & R').
  exists (fun f => In (Tell f) l). split; intros x.
  - destruct (output_lines_set (mkEnv c path src nov sd d) t P) as (_ & O). rewrite O. apply renders_in; assumption.
  - destruct (output_lines_set (mkEnv c' path src nov sd d) t' P') as (_ & O). rewrite O. apply renders_in; assumption.
Qed.
Print Assumptions c80_printed.

(** Readable and parsable lines at one verbosity: line by line the same findings, with the same positions, versions and
    texts. *)
Theorem c80_formats : forall c c' path src nov sd d v s s' m t m' t',
  same_search c c' -> c_format c = FDefault -> c_quiet c = false -> c_format c' = FParsable ->
  c_verbose c = c_verbose c' -> c_print_visits c = false -> c_print_visits c' = false ->
  tour (mkEnv c path src nov sd d) v = Ok s -> tour (mkEnv c' path src nov sd d) v = Ok s' ->
  minimum_versions (mkEnv c path src nov sd d) s = Ok (m, t) -> minimum_versions (mkEnv c' path src nov sd d) s' = Ok (m', t') ->
  exists fs, Forall2 (reads (c_verbose c)) fs (s_out t) /\ Forall2 (parses (c_verbose c) path) fs (s_out t').
Proof.
  intros c c' path src nov sd d v s s' m t m' t' S F Q F' V P P' T T' M M'.
  destruct (shown_same c c' path src nov sd d S) with (v := v) (s := s) (s' := s') (m := m) (t := t) (m' := m') (t' := t') as (_ & l & R & R'); auto.
  assert (B : exists fs, Forall2 (line_of c path) fs (s_out t) /\ Forall2 (line_of c' path) fs (s_out t')).
  { apply (renders_both c c' path l); auto. intros f. unfold is_shown. rewrite V. split; intros (_ & L); split; auto. }
  destruct B as (fs & A & B). exists fs. unfold line_of in A, B. rewrite F in A. rewrite F' in B. rewrite <- V in B. auto.
Qed.
Print Assumptions c80_formats.

(** More verbose: nothing is lost. What a less verbose analysis prints is told by the more verbose one too. *)
Theorem c80_verbosity : forall c c' path src nov sd d v s s' m t m' t',
  same_search c c' -> c_print_visits c = false -> c_print_visits c' = false ->
  c_verbose c <= c_verbose c' -> (c_format c' = FParsable \/ c_quiet c' = false) ->
  tour (mkEnv c path src nov sd d) v = Ok s -> tour (mkEnv c' path src nov sd d) v = Ok s' ->
  minimum_versions (mkEnv c path src nov sd d) s = Ok (m, t) -> minimum_versions (mkEnv c' path src nov sd d) s' = Ok (m', t') ->
  forall x, In x (output_lines (mkEnv c path src nov sd d) t) ->
  exists f y, line_of c path f x /\ line_of c' path f y /\ In y (output_lines (mkEnv c' path src nov sd d) t').
Proof.
  intros c c' path src nov sd d v s s' m t m' t' S P P' V Q T T' M M' x I.
  destruct (shown_same c c' path src nov sd d S v s s' m t m' t' T T' M M') as (_ & l & R & R').
  destruct (output_lines_set (mkEnv c path src nov sd d) t P) as (_ & O).
  destruct (output_lines_set (mkEnv c' path src nov sd d) t' P') as (_ & O'). apply O in I.
  destruct (proj1 (renders_in c path l _ P R x) I) as (f & If & (Sf & L) & X).
  assert (Y : exists y, line_of c' path f y).
  { pose proof (said_renders c' path [Tell f]) as Z. remember (flat_map (said c' path) [Tell f]) as ys.
    inversion Z; subst; [eauto|]. exfalso. match goal with N : ~ is_shown c' f |- _ => apply N end. split; [exact Q|lia]. }
  destruct Y as (y & Y). exists f, y. split; [exact X|]. split; [exact Y|]. apply O', (renders_in c' path l _ P' R').
  exists f. split; [exact If|]. split; [split; [exact Q|lia]|exact Y].
Qed.
Print Assumptions c80_verbosity.

(** A readable and a parsable analysis, and one that is less verbose. *)
Definition env_of (c : config) : env := mkEnv c "a.py" None [] (fun _ _ => Ok false) (fun _ => "").
Definition cfg_readable : config := w_verbose 3 (default_config 1).
Definition cfg_fields : config := set_format FParsable (default_config 1).
Definition cfg_brief : config := w_verbose 2 (default_config 1).
Example c80_case :
  same_search cfg_readable cfg_fields /\ same_search cfg_brief cfg_fields /\
  c_format cfg_readable = FDefault /\ c_quiet cfg_readable = false /\ c_format cfg_fields = FParsable /\
  c_verbose cfg_readable = c_verbose cfg_fields /\ c_verbose cfg_brief < c_verbose cfg_fields /\
  c_print_visits cfg_readable = false /\ c_print_visits cfg_fields = false /\ c_print_visits cfg_brief = false /\
  lines_of (env_of cfg_readable) tree_features =
  ["print(expr) requires 2.0, 3.0"; "L1: coroutines (async) require !2, 3.5"; "L1: keyword-only parameters require !2, 3.0";
   "L1: async generators (await and yield in same func) require !2, 3.6"; "L2: f-strings require !2, 3.6";
   "L2: coroutines (await) require !2, 3.5"; "L2: named expressions require !2, 3.8";
   "L3: byte string (b'..') or `str` synonym requires 2.6, 3.0"; "L3: ellipsis literal (`...`) out of slices requires !2, 3.0"] /\
  lines_of (env_of cfg_fields) tree_features =
  ["a.py:::2.0:3.0:print(expr)"; "a.py:1::!2:3.5:coroutines (async)"; "a.py:1::!2:3.0:keyword-only parameters";
   "a.py:1::!2:3.6:async generators (await and yield in same func)"; "a.py:2::!2:3.6:f-strings";
   "a.py:2::!2:3.5:coroutines (await)"; "a.py:2::!2:3.8:named expressions";
   "a.py:3::2.6:3.0:byte string (b'..') or `str` synonym"; "a.py:3::!2:3.0:ellipsis literal (`...`) out of slices"] /\
  lines_of (env_of cfg_brief) tree_features =
  ["async generators (await and yield in same func) require !2, 3.6"; "byte string (b'..') or `str` synonym requires 2.6, 3.0";
   "coroutines (async) require !2, 3.5"; "coroutines (await) require !2, 3.5"; "ellipsis literal (`...`) out of slices requires !2, 3.0";
   "f-strings require !2, 3.6"; "keyword-only parameters require !2, 3.0"; "named expressions require !2, 3.8";
   "print(expr) requires 2.0, 3.0"].
Proof.
  repeat (split; [first [reflexivity | vm_compute; reflexivity | repeat split; auto; discriminate]|]). vm_compute. reflexivity.
Qed.

(** Why the formats have to be compared at one verbosity: the parsable format is for full verbosity, but with a config file
    that asks for it an option [-v] lowers the verbosity again (C19), and then the lines about findings are gone while the
    format stays. *)
Theorem c80_lowered_refuted : exists cfg args c ps v pr, parse 1 (fun _ => true) (fun _ => None) "/x" cfg (Ok (Some "/x/vermin.ini")) args (default_config 1) = Ok (c, OPaths ps v pr) /\
  args = ["-v"; "a.py"] /\ parse_file 1 (fun _ => true) (cfg "/x/vermin.ini") = Some cfg_fields /\ c_format c = FParsable /\
  same_search cfg_fields c /\ lines_of (env_of c) tree_features = [] /\ lines_of (env_of cfg_fields) tree_features <> [].
Proof.
  exists (fun _ => CfgSection (section_of 1 [("format", Some "parsable")])), ["-v"; "a.py"], (w_verbose 1 cfg_fields), ["a.py"], false, [].
  split; [reflexivity|]. split; [reflexivity|]. split; [reflexivity|]. split; [reflexivity|]. split; [repeat split; auto; discriminate|].
  split; [vm_compute; reflexivity|]. vm_compute. discriminate.
Qed.
Print Assumptions c80_lowered_refuted.
