(** C69: a command line that is refused is told why. *)
From Verif Require Import PyBase PyLemmas Utility RulesData Rules Config Paths Ini Parser Detection Arguments Processor Main
  UsageData Usage Messages Spec_Base Spec_Utility Spec_Config Spec_Rules Spec_Args Spec_Messages Proof_Utility Proof_Config
  Proof_Messages Prop_Main Prop_Options.

(** A refused command line ends in code 1, and the last lines printed give a reason that is true of it ([refusal]).
    Only the texts for unreadable exclusion files can stand before. *)
Theorem c69_refused : forall cpus re_ok ef cwd cfg err_text det args c c' k,
  parse cpus re_ok ef cwd cfg det args c = Ok (c', OCode k) ->
  k = 1 /\ exists d front back why, det = Ok d /\ args = front ++ back /\
    parse_said cpus re_ok ef cwd cfg err_text det args c = Ok (map err_text (unread ef front) ++ why) /\
    refusal cpus re_ok cwd cfg err_text d args c c' why.
Proof.
  intros cpus re_ok ef cwd cfg err_text det args c c' k H. assert (C := parse_cases cpus re_ok ef cwd cfg err_text det args c).
  rewrite H in C. exact C.
Qed.
Print Assumptions c69_refused.

(** An accepted command line is told of the exclusion files that could not be read, and of nothing else. *)
Theorem c69_accepted : forall cpus re_ok ef cwd cfg err_text det args c c' ps v pr,
  parse cpus re_ok ef cwd cfg det args c = Ok (c', OPaths ps v pr) ->
  parse_said cpus re_ok ef cwd cfg err_text det args c = Ok (map err_text (unread ef args)).
Proof.
  intros cpus re_ok ef cwd cfg err_text det args c c' ps v pr H. assert (C := parse_cases cpus re_ok ef cwd cfg err_text det args c).
  rewrite H in C. exact C.
Qed.
Print Assumptions c69_accepted.

(** A config file is used, or what is wrong with it is printed. *)
Theorem c69_config_file : forall cpus re_ok cfg err_text f,
  (exists c, parse_file cpus re_ok (cfg f) = Some c /\ file_told cpus re_ok cfg err_text f = inl c) \/
  (parse_file cpus re_ok (cfg f) = None /\
   exists l, file_told cpus re_ok cfg err_text f = inr l /\ file_fault re_ok f (err_text f) (cfg f) l).
Proof.
  intros cpus re_ok cfg err_text f. assert (A := file_agree cpus re_ok err_text cfg f). destruct (parse_file cpus re_ok (cfg f)); eauto.
Qed.
Print Assumptions c69_config_file.

(** A run that ends with another exit code than 0 prints something, unless quiet mode is on. *)
Theorem c69_failing : forall w prog err_text fuel args out k, (forall n, w_detected w <> Err (SystemExit n)) ->
  whole_main w prog err_text fuel args = Some (out, Ok k) -> k <> 0 ->
  out <> "" \/ exists c ps v pr,
    parse (w_cpus w) (w_re_ok w) (w_excl_file w) (w_cwd w) (w_cfg_file w) (w_detected w) args (default_config (w_cpus w)) =
      Ok (c, OPaths ps v pr) /\ c_quiet c = true.
Proof. exact whole_tells. Qed.
Print Assumptions c69_failing.

(** Several refusals in a folder whose config file asks for an unknown backport. *)
Definition bad_ini : list (string * option string) := [("backports", Some ("enum" +++ nl +++ "nope"))].
Definition msg_cfg (p : string) : cfg_file := if String.eqb p "/w/bad.ini" then CfgSection (section_of 4 bad_ini) else CfgUnreadable.
Definition msg_said (args : list string) : res (list string) :=
  parse_said 4 (fun _ => true) (fun _ => None) "/w" msg_cfg (fun f => "no file " +++ f) (Ok None) args (default_config 4).
Definition msg_out (args : list string) : option parse_out :=
  match parse 4 (fun _ => true) (fun _ => None) "/w" msg_cfg (Ok None) args (default_config 4) with Ok (_, o) => Some o | Err _ => None end.
Example c69_case :
  msg_out ["--exclude-file"; "x"; "--backport"; "typing_extensions==9"] = Some (OCode 1) /\
  msg_said ["--exclude-file"; "x"; "--backport"; "typing_extensions==9"] =
    Ok ["no file x"; "Unknown backport: typing_extensions==9"; "Did you mean one of the following?";
        "  typing_extensions      - https://pypi.org/project/typing-extensions/4.3.0/ (!2, 3.7)" +++ nl +++
        "  typing_extensions==4.3 - https://pypi.org/project/typing-extensions/4.3.0/ (!2, 3.7)" +++ nl +++
        "  typing_extensions==4.0 - https://pypi.org/project/typing-extensions/4.0.0/ (!2, 3.6)";
        "Get the full list of backports via `--help`."] /\
  msg_said ["-c"; "bad.ini"; "a.py"] = Ok ["Unknown backport: nope"] /\
  msg_said ["-c"; "none.ini"; "a.py"] = Ok ["Could not load config file: /w/none.ini"; "no file /w/none.ini"] /\
  msg_said ["-t=2.7"; "-t=3.1"; "-t=3.2=x"; "a.py"] = Ok ["A maximum of two targets can be specified!"; "Invalid target: 3.2"] /\
  msg_said ["-p=0"] = Ok ["Non-positive number: 0"] /\ msg_said ["a.py"; "--feature"] = Ok ["Requires a feature name! Example: --feature fstring-self-doc"] /\
  msg_out ["--exclude-file"; "x"; "a.py"] = Some (OPaths ["a.py"] false []) /\ msg_said ["--exclude-file"; "x"; "a.py"] = Ok ["no file x"] /\
  option_map snd (whole_main (opt_world opt_config) "vermin" (fun f => f) 3 ["no.py"]) = Some (Ok 1) /\
  option_map fst (whole_main (opt_world opt_config) "vermin" (fun f => f) 3 ["no.py"]) = Some ("No files specified to analyze!" +++ nl).
Proof. repeat (split; [vm_compute; reflexivity|]). vm_compute. reflexivity. Qed.

(** In quiet mode such a run is silent. *)
Example c69_quiet_case : whole_main (opt_world opt_config) "vermin" (fun f => f) 3 ["-q"; "no.py"] = Some ("", Ok 1).
Proof. vm_compute. reflexivity. Qed.
