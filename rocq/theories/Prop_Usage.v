(** C70: the help text and the program agree. *)
From Verif Require Import PyBase PyLemmas Utility RulesData Rules Config Formats Paths Pool Detection Arguments Processor Main UsageData Usage Messages
  Spec_Base Spec_Utility Spec_Config Proof_Config Spec_Args Spec_Detection Proof_Args Spec_Usage Proof_Usage.

(** The help text is what --help prints, and nothing else. *)
Theorem c70_shown : forall w prog et fuel a h b d, w_detected w = Ok d -> In h ["--help"; "-h"] ->
  (forall x, In x a -> ~ In x ["--version"; "-V"]) ->
  exists l, print_usage prog (w_cpus w) true = Ok l /\ whole_main w prog et fuel (a ++ h :: b) = Some (print_lines l, Ok 0).
Proof. exact help_shown. Qed.
Print Assumptions c70_shown.

(** Every option it documents is taken as an option, not as a file or folder, but for one. *)
Theorem c70_documented_partial : forall prog cpus ls, no_newline prog -> help_lines prog cpus ls ->
  forall re_ok ef cwd cfg det a rest c c' ps v pr, documented ls a -> a <> "--no-config-file" ->
  parse cpus re_ok ef cwd cfg det (a :: rest) c = Ok (c', OPaths ps v pr) -> exists front, rest = front ++ ps.
Proof.
  intros prog cpus ls N H re_ok ef cwd cfg det a rest c c' ps v pr D X P.
  apply (documented_iff prog cpus ls N H) in D as (w & b & I & A). apply (written_known w b a I) in A.
  eapply known_not_path; [|exact P]. destruct A as [A|A]; [auto|right]. cbn [In] in *. intuition congruence.
Qed.
Print Assumptions c70_documented_partial.

(** "--no-config-file" is documented like the others, but ends up among the files and folders. *)
Theorem c70_documented_refuted : forall prog cpus ls, no_newline prog -> help_lines prog cpus ls ->
  documented ls "--no-config-file" /\
  forall re_ok ef cwd cfg d, parse cpus re_ok ef cwd cfg (Ok d) ["--no-config-file"] (default_config cpus) =
    Ok (default_config cpus, OPaths ["--no-config-file"] false []).
Proof.
  intros prog cpus ls N H. split; [|reflexivity]. apply (documented_iff prog cpus ls N H).
  apply known_written; [right; cbn; tauto|reflexivity].
Qed.
Print Assumptions c70_documented_refuted.

(** Nothing else is taken as an option, except what begins like "-v". *)
Theorem c70_undocumented_partial : forall prog cpus ls, no_newline prog -> help_lines prog cpus ls ->
  forall re_ok ef cwd cfg det a front back c, ~ documented ls a -> ~ begins "-v" a ->
  ~ In (last front "") needs_operand -> front ++ back <> [] ->
  same_but_paths (parse cpus re_ok ef cwd cfg det (front ++ a :: back) c) (parse cpus re_ok ef cwd cfg det (front ++ back) c).
Proof.
  intros prog cpus ls N H re_ok ef cwd cfg det a front back c D V L E. apply untaken_same; [|exact L|exact E].
  assert (S : startswith "-v" a = false) by (apply not_true_is_false; intros K; apply V; apply Proof_Strings.startswith_iff in K; exact K).
  assert (K : ~ (taken a = true \/ In a ["--help"; "-h"; "--version"; "-V"; "--no-config-file"])).
  { intros K. apply D, (documented_iff prog cpus ls N H), known_written; assumption. }
  split; [destruct (taken a); [tauto|reflexivity]|tauto].
Qed.
Print Assumptions c70_undocumented_partial.

(** Alone it is a file or folder. *)
Theorem c70_alone_partial : forall prog cpus ls, no_newline prog -> help_lines prog cpus ls ->
  forall re_ok ef cwd cfg a, ~ documented ls a -> ~ begins "-v" a ->
  parse cpus re_ok ef cwd cfg (Ok None) [a] (default_config cpus) = Ok (default_config cpus, OPaths [a] false []).
Proof.
  intros prog cpus ls N H re_ok ef cwd cfg a D V. apply untaken_alone.
  assert (S : startswith "-v" a = false) by (apply not_true_is_false; intros K; apply V; apply Proof_Strings.startswith_iff in K; exact K).
  assert (K : ~ (taken a = true \/ In a ["--help"; "-h"; "--version"; "-V"; "--no-config-file"])).
  { intros K. apply D, (documented_iff prog cpus ls N H), known_written; assumption. }
  split; [destruct (taken a); [tauto|reflexivity]|tauto].
Qed.
Print Assumptions c70_alone_partial.

(** A mistyped "--version" of one dash is not refused and not a file, but a verbosity of 1. *)
Theorem c70_undocumented_refuted : forall prog cpus ls, no_newline prog -> help_lines prog cpus ls ->
  ~ documented ls "-version" /\
  forall re_ok ef cwd cfg, parse cpus re_ok ef cwd cfg (Ok None) ["-version"] (default_config cpus) =
    Ok (w_verbose 1 (default_config cpus), OPaths [] false []).
Proof.
  intros prog cpus ls N H. split; [|reflexivity]. intros D. apply (documented_iff prog cpus ls N H) in D as (w & b & I & A).
  destruct A as [(_ & n & P & E)|[(p & x & y & -> & E)|(_ & _ & E)]].
  - destruct n as [|n]; [lia|]. cbn in E. injection E as E. destruct n; discriminate E.
  - assert (J : In p ["--target"; "-t"; "--processes"; "-p"]) by (apply (eq_words p x), in_map_iff; exists (p +++ "=" +++ x, b); auto).
    cbn [In] in J. repeat (destruct J as [<-|J]; [discriminate E|]). destruct J.
  - subst w. assert (M : mem "-version" (map fst all_words) = false) by reflexivity. apply mem_false in M. apply M, in_map_iff. exists ("-version", b). auto.
Qed.
Print Assumptions c70_undocumented_refuted.

(** What is marked "(default)" changes nothing, when no config file is in use ... *)
Theorem c70_default : forall prog cpus ls, no_newline prog -> help_lines prog cpus ls ->
  forall re_ok ef cwd cfg o rest, default_option ls o -> rest <> [] -> (forall x, In x rest -> ~ In x ["-c"; "--config-file"]) ->
  parse cpus re_ok ef cwd cfg (Ok None) (o :: rest) (default_config cpus) = parse cpus re_ok ef cwd cfg (Ok None) rest (default_config cpus).
Proof. intros prog cpus ls N H re_ok ef cwd cfg o rest D E C. apply default_same; [|exact E|exact C]. apply (default_iff prog cpus ls N H), D. Qed.
Print Assumptions c70_default.

(** ... and everything else does. *)
Theorem c70_not_default : forall prog cpus ls, no_newline prog -> help_lines prog cpus ls ->
  forall re_ok ef cwd cfg o x, unmarked_option ls o -> plain_arg x ->
  parse cpus re_ok ef cwd cfg (Ok None) [o; x] (default_config cpus) <> parse cpus re_ok ef cwd cfg (Ok None) [x] (default_config cpus).
Proof. intros prog cpus ls N H re_ok ef cwd cfg o x D X. apply unmarked_differs; [|exact X]. apply (unmarked_iff prog cpus ls N H), D. Qed.
Print Assumptions c70_not_default.

(** The names listed are the names taken: formats in any letter case, backports and features as written. *)
Theorem c70_listed : forall prog cpus ls, no_newline prog -> help_lines prog cpus ls ->
  forall re_ok ef cwd cfg n, plain_arg n ->
  let said := fun o => parse cpus re_ok ef cwd cfg (Ok None) [o; n] (default_config cpus) in
  (forall o, In o ["--format"; "-f"] -> (takes (said o) <-> In (lower n) (listed "        Supported formats:" ls))) /\
  (takes (said "--backport") <-> In n (listed "        Supported backports:" ls)) /\
  (takes (said "--feature") <-> In n (listed "        Some features are disabled by default due to being unstable:" ls)).
Proof.
  intros prog cpus ls N H re_ok ef cwd cfg n X said.
  rewrite (listed_formats prog cpus ls N H), (listed_backports prog cpus ls N H), (listed_features prog cpus ls N H).
  split; [intros o O; apply takes_format; assumption|]. split; [apply takes_backport, X|apply takes_feature, X].
Qed.
Print Assumptions c70_listed.

(** Files with the extensions said to be always scanned are found wherever they are come upon; files
    with those said to be ignored are found only when they are given. *)
Theorem c70_extensions : forall prog cpus ls, no_newline prog -> help_lines prog cpus ls ->
  forall fs cwd search c hidden ignore scan fuel paths found,
  detect_paths fs cwd search c hidden ignore scan fuel paths = Some (Ok found) ->
  (forall l e d p, In l (saying "are always scanned" ls) -> In e (quoted l) -> has_ext (lower (actual cwd c p)) e ->
     looked_at fs cwd search c hidden ignore scan paths d p -> not_left_out search c ignore p -> shown hidden p ->
     is_file fs (actual cwd c p) -> In (actual cwd c p) found) /\
  (forall l e q, In l (saying "are ignored (including" ls) -> In e (quoted l) -> has_ext (lower q) e ->
     In q found -> exists p, In p paths /\ q = actual cwd c p).
Proof.
  intros prog cpus ls N H fs cwd search c hidden ignore scan fuel paths found D. split.
  - intros l e d p L E X. apply (in_map quoted) in L. rewrite (said_scanned prog cpus ls N H) in L. destruct L as [L|[]]. rewrite <- L in E.
    apply (scanned_found _ _ _ _ _ _ _ _ _ _ D d p e E X).
  - intros l e q L E X. apply (in_map quoted) in L. rewrite (said_ignored prog cpus ls N H) in L. destruct L as [L|[]]. rewrite <- L in E.
    apply (ignored_given _ _ _ _ _ _ _ _ _ _ D q e E X).
Qed.
Print Assumptions c70_extensions.

(** The config file names and project boundaries it lists are those that are looked for. *)
Theorem c70_config_files : forall prog cpus ls, no_newline prog -> help_lines prog cpus ls ->
  exists names bounds,
  map quoted (filter (startswith "Config file names being looked for: ") ls) = [names] /\
  map quoted (filter (startswith "Project boundary files/folders: ") ls) = [bounds] /\
  forall candidate exists_in s,
  (detect_config_file candidate exists_in s = Ok None <-> forall g x, searched exists_in s g -> In x names -> ~ stops (candidate g x)) /\
  (forall f n, detect_config_file candidate exists_in s = Ok (Some (f, n)) -> In n names) /\
  (forall d f g, searched exists_in (d :: f) g <-> g = d :: f \/ (searched exists_in f g /\ forall b, In b bounds -> exists_in (d :: f) b = false)).
Proof.
  intros prog cpus ls N H. eexists. eexists. split; [apply (said_names prog cpus ls N H)|]. split; [apply (said_boundaries prog cpus ls N H)|].
  intros cand ex s. destruct (detect_iff cand ex s) as (A & _ & C). split; [exact C|]. split.
  - intros f n E. apply A in E as ((_ & _ & (a & b & E & _) & _) & _). rewrite E. apply in_elt.
  - intros d f g. split.
    + intros S. inversion S; subst; auto.
    + intros [->|[S B]]; [apply se_start|apply se_up; assumption].
Qed.
Print Assumptions c70_config_files.

(** The number of processes it gives as the default is the one that is used. *)
Theorem c70_processes : forall prog cpus ls, no_newline prog -> help_lines prog cpus ls ->
  In ("        cores (" +++ z_str (c_processes (default_config cpus)) +++ ").") ls.
Proof. exact said_cores. Qed.
Print Assumptions c70_processes.

Definition nothing (_ : string) : option (list string) := None.
Example c70_case : exists ls, help_lines "vermin" 4 ls /\ no_newline "vermin" /\ List.length (option_lines ls) = 41%nat /\
  documented ls "--lint" /\ documented ls "-t=3.9-" /\ documented ls "-vvv" /\ ~ documented ls "--vervose" /\
  default_option ls "--show-tips" /\ unmarked_option ls "--no-tips" /\
  In "typing_extensions==4.0" (listed "        Supported backports:" ls) /\
  takes (parse 4 (fun _ => true) nothing "/w" (fun _ => CfgNoSection) (Ok None) ["-f"; "Parsable"] (default_config 4)).
Proof.
  destruct (Proof_Messages.usage_ok "vermin" 4 true) as (l & E & _). exists (split_char newline (print_lines l)).
  assert (H : help_lines "vermin" 4 (split_char newline (print_lines l))) by (exists l; auto).
  assert (N : no_newline "vermin") by reflexivity.
  split; [exact H|]. split; [exact N|]. split; [rewrite (help_text "vermin" 4 N _ H); vm_compute; reflexivity|].
  rewrite !(documented_iff "vermin" 4 _ N H), (default_iff "vermin" 4 _ N H), (unmarked_iff "vermin" 4 _ N H).
  split; [exists "--lint", false; split; [cbn; tauto|right; right; split; [discriminate|split; [unfold no_eq; cbn; intuition discriminate|reflexivity]]]|].
  split; [exists "-t=V", false; split; [cbn; tauto|right; left; exists "-t", "V", "3.9-"; auto]|].
  split; [exists "-v..", false; split; [cbn; tauto|left; split; [reflexivity|exists 3%nat; split; [lia|reflexivity]]]|].
  split; [intros (w & b & I & A); destruct (written_known w b _ I A) as [T|T]; [discriminate T|cbn in T; intuition discriminate]|].
  split; [cbn; tauto|]. split; [cbn; tauto|]. split; [rewrite (listed_backports "vermin" 4 _ N H); vm_compute; tauto|].
  eexists _, _, _. reflexivity.
Qed.
