(** C68: settings mean the same in a config file and as options. The theorems named _partial are about names of
    exclusions that do not begin with "-" and, with the parsable format, about runs without further options; of
    the others it is false, see c68_dash_refuted and c68_format_refuted. *)
From Verif Require Import PyBase PyLemmas Utility RulesData Rules Config Paths Ini Parser Detection Arguments Processor Main Spec_Base Spec_Utility Spec_Config Spec_Ini Spec_Options
  Proof_Ini Proof_Written Proof_Options Prop_Main.

(** A run with a config file named on the command line is the run with what the file says given by options,
    whatever other arguments follow. *)
Theorem c68_named_partial : forall w c t f rest fuel d, expressible (w_re_ok w) c -> Forall undashed (c_exclusions_set c ++ c_exclusion_regex_set c) ->
  text_of (written c) t -> behind c rest -> w_detected w = Ok None -> undashed f -> w_cfg_file w (abspath (w_cwd w) f) = cfg_of_text (w_cpus w) t ->
  main (reaching d w) fuel ("-c" :: f :: rest) = main w fuel (spelled c ++ rest).
Proof. intros w c t f rest fuel d E U T B D F C. symmetry. exact (same_named w c t f rest E U T B fuel d D F C). Qed.
Print Assumptions c68_named_partial.

(** With a config file that is found, a line tells so. *)
Theorem c68_found_partial : forall w c t f rest fuel, expressible (w_re_ok w) c -> Forall undashed (c_exclusions_set c ++ c_exclusion_regex_set c) ->
  text_of (written c) t -> behind c rest -> rest <> [] -> w_detected w = Ok None -> w_cfg_file w f = cfg_of_text (w_cpus w) t ->
  same_but_note f (main w fuel (spelled c ++ rest)) (main (reaching (Some f) w) fuel rest).
Proof. intros w c t f rest fuel E U T B. exact (same_found w c t f rest E U T B fuel). Qed.
Print Assumptions c68_found_partial.

(** A folder with a file that imports argparse and a config file. *)
Definition opt_config : config :=
  mkConfig false 1 false 2 true false false true ["a.b"; "typing"] ["^x$"] false ["enum"] ["fstring-self-doc"]
    [(true, (2, 7)); (false, (3, 1))] true false true false FDefault.
Definition opt_text (c : config) : string := join nl (written c).
Definition opt_file (c : config) (p : string) : cfg_file := if String.eqb p "/w/v.ini" then cfg_of_text 4 (opt_text c) else CfgUnreadable.
Definition opt_stat (p : string) : option fkind := if String.eqb p "a.py" || String.eqb p "/w/a.py" then Some KReg else None.
Definition opt_source (p : string) : fcontent := if String.eqb p "/w/a.py" then files0 "a.py" else files0 p.
Definition opt_world (c : config) : world :=
  mkWorld 4 3 "/w" (mkFs opt_stat opt_stat (fun _ => None) (fun _ => None)) (fun _ => true)
          (fun _ _ => false) (fun _ => None) (opt_file c) (Ok None) opt_source all_done no_hooks.
Lemma opt_expressible re : re "^x$" = true -> expressible re opt_config.
Proof.
  intros R. assert (It : forall s, sall safe s = true -> s <> "" -> item s) by (intros s A B; apply (item_safe s A B)).
  assert (N1 : forall a : string, NoDup [a]) by (intros a; constructor; [intros []|constructor]).
  unfold expressible. cbn -[backports_table features_table item].
  split; [lia|]. split; [lia|]. split; [intros H; discriminate|]. split; [split|split; [split; [apply N1|]|split; [split; [apply N1|]|split; [split; [apply N1|]|split]]]].
  - constructor; [intros [E|[]]; discriminate|]. apply N1.
  - constructor; [apply It; [reflexivity|discriminate]|]. constructor; [apply It; [reflexivity|discriminate]|constructor].
  - constructor; [split; [apply It; [reflexivity|discriminate]|exact R]|constructor].
  - intros b [<-|[]]. apply mem_In. vm_compute. reflexivity.
  - intros b [<-|[]]. apply mem_In. vm_compute. reflexivity.
  - unfold ver_le. cbn. lia.
  - repeat (constructor; [unfold in_range, ver_le, ver_lt; cbn; lia|]). constructor.
Qed.
Example c68_case :
  expressible (w_re_ok (opt_world opt_config)) opt_config /\ Forall undashed (c_exclusions_set opt_config ++ c_exclusion_regex_set opt_config) /\
  text_of (written opt_config) (opt_text opt_config) /\ behind opt_config ["-v"; "a.py"; "--no-target"] /\ w_detected (opt_world opt_config) = Ok None /\ undashed "v.ini" /\
  w_cfg_file (opt_world opt_config) (abspath "/w" "v.ini") = cfg_of_text 4 (opt_text opt_config) /\
  spelled opt_config = ["--no-quiet"; "--no-dump"; "-p=2"; "--ignore"; "--no-pessimistic"; "--no-tips"; "--hidden"; "--no-make-paths-absolute"; "--eval-annotations";
    "--no-violations"; "--parse-comments"; "--no-symlink-folders"; "-v"; "--exclude"; "a.b"; "--exclude"; "typing"; "--exclude-regex"; "^x$"; "--backport"; "enum";
    "--feature"; "fstring-self-doc"; "-t=2.7"; "-t=3.1-"] /\
  main (opt_world opt_config) 3 (spelled opt_config ++ ["a.py"]) =
    Some ("Detecting python files.." +++ nl +++ "Analyzing using 2 processes.." +++ nl +++ "2.7, 3.2     a.py" +++ nl +++ "Minimum required versions: 2.7, 3.2" +++ nl +++
          "Target versions not met:   2.7, 3.1-" +++ nl, Ok 1) /\
  main (opt_world opt_config) 3 ["-c"; "v.ini"; "a.py"] = main (opt_world opt_config) 3 (spelled opt_config ++ ["a.py"]).
Proof.
  split; [apply opt_expressible; reflexivity|]. split; [repeat (constructor; [discriminate|]); constructor|].
  split; [apply text_join; discriminate|]. split.
  { cbn. intros a [<-|[<-|[<-|[]]]] [H|[H|[H|[]]]]; discriminate. }
  split; [reflexivity|]. split; [discriminate|]. split.
  { assert (A : abspath "/w" "v.ini" = "/w/v.ini") by (vm_compute; reflexivity). rewrite A. reflexivity. }
  split; [vm_compute; reflexivity|]. split; [vm_compute; reflexivity|]. vm_compute. reflexivity.
Qed.

(** An exclusion that begins with "-" is also taken for the option of that name when it is given as one. *)
Definition dash_config : config := w_exclusions_set ["-q"] (default_config 4).
Lemma dash_expressible re : expressible re dash_config.
Proof.
  unfold expressible. cbn -[backports_table features_table item]. split; [lia|]. split; [lia|]. split; [intros H; discriminate|].
  split; [split; [constructor; [intros []|constructor]|constructor; [apply (item_safe "-q" eq_refl); discriminate|constructor]]|].
  do 3 (split; [split; [constructor|first [solve [intros ? []]|constructor]]|]). split; [exact I|constructor].
Qed.
Theorem c68_dash_refuted : exists w c t f rest fuel d, expressible (w_re_ok w) c /\ text_of (written c) t /\ behind c rest /\ w_detected w = Ok None /\ undashed f /\
  w_cfg_file w (abspath (w_cwd w) f) = cfg_of_text (w_cpus w) t /\ main (reaching d w) fuel ("-c" :: f :: rest) <> main w fuel (spelled c ++ rest).
Proof.
  exists (opt_world dash_config), dash_config, (opt_text dash_config), "v.ini", ["a.py"], 3%nat, None.
  split; [apply dash_expressible|]. split; [apply text_join; discriminate|]. split; [cbn; intros a [<-|[]] [H|[H|[H|[]]]]; discriminate|].
  split; [reflexivity|]. split; [discriminate|]. split.
  - assert (A : abspath "/w" "v.ini" = "/w/v.ini") by (vm_compute; reflexivity). change (opt_file dash_config (abspath "/w" "v.ini") = cfg_of_text 4 (opt_text dash_config)). rewrite A. reflexivity.
  - intros H. assert (E : option_map fst (main (opt_world dash_config) 3 (spelled dash_config ++ ["a.py"])) = Some "") by (vm_compute; reflexivity).
    rewrite <- H in E. vm_compute in E. discriminate.
Qed.
Print Assumptions c68_dash_refuted.

(** With the parsable format what it demands is seen to at once when the file is read, but at the end when the format is
    an option: options behind it undo it in one case only. *)
Definition format_config : config := set_format FParsable (default_config 4).
Lemma format_expressible re : expressible re format_config.
Proof.
  unfold expressible. cbn -[backports_table features_table item]. split; [lia|]. split; [lia|]. split; [intros _; cbn; repeat split; lia|].
  do 4 (split; [split; [constructor|first [solve [intros ? []]|constructor]]|]). split; [exact I|constructor].
Qed.
Theorem c68_format_refuted : exists w c t f rest fuel d, expressible (w_re_ok w) c /\ c_exclusions_set c = [] /\ c_exclusion_regex_set c = [] /\ text_of (written c) t /\
  (forall a, In a rest -> ~ In a ["-c"; "--config-file"; "--no-config-file"]) /\ w_detected w = Ok None /\ undashed f /\
  w_cfg_file w (abspath (w_cwd w) f) = cfg_of_text (w_cpus w) t /\ main (reaching d w) fuel ("-c" :: f :: rest) <> main w fuel (spelled c ++ rest).
Proof.
  exists (opt_world format_config), format_config, (opt_text format_config), "v.ini", ["-v"; "a.py"], 3%nat, None.
  split; [apply format_expressible|]. split; [reflexivity|]. split; [reflexivity|]. split; [apply text_join; discriminate|].
  split; [cbn; intros a [<-|[<-|[]]] [H|[H|[H|[]]]]; discriminate|].
  split; [reflexivity|]. split; [discriminate|]. split.
  - assert (A : abspath "/w" "v.ini" = "/w/v.ini") by (vm_compute; reflexivity). change (opt_file format_config (abspath "/w" "v.ini") = cfg_of_text 4 (opt_text format_config)). rewrite A. reflexivity.
  - intros H. assert (E : exists x, option_map fst (main (opt_world format_config) 3 (spelled format_config ++ ["-v"; "a.py"])) = Some x /\
      option_map fst (main (reaching None (opt_world format_config)) 3 ("-c" :: "v.ini" :: ["-v"; "a.py"])) <> Some x)
      by (eexists; split; [vm_compute; reflexivity|vm_compute; discriminate]).
    destruct E as (x & E1 & E2). apply E2. rewrite H. exact E1.
Qed.
Print Assumptions c68_format_refuted.
