(** C74: whatever config file and command line are given, the configuration of a run is a valid one. *)
From Verif Require Import PyBase PyLemmas Utility RulesData Rules Config Formats Paths Ini Arguments
  Spec_Base Spec_Utility Spec_Config Spec_Valid Proof_Valid.

(** What a config file gives. *)
Theorem c74_file : forall cpus re_ok f c, 0 < cpus -> parse_file cpus re_ok f = Some c -> valid re_ok c.
Proof. intros cpus re_ok f c C. exact (file_valid cpus re_ok C f c). Qed.
Print Assumptions c74_file.

(** What a command line makes of a valid configuration, refused or not. *)
Theorem c74_parse : forall cpus re_ok ef cwd cfg det args c c' out, 0 < cpus ->
  parse cpus re_ok ef cwd cfg det args c = Ok (c', out) -> valid re_ok c -> valid re_ok c'.
Proof. intros cpus re_ok ef cwd cfg det args c c' out C. exact (parse_valid cpus re_ok C ef cwd cfg det args c c' out). Qed.
Print Assumptions c74_parse.

(** So runs of the program start with a valid one; and those with only violations have targets and enough verbosity to show them,
    and quiet ones have none. *)
Theorem c74_run : forall cpus re_ok ef cwd cfg det args c paths versions printed, 0 < cpus ->
  parse cpus re_ok ef cwd cfg det args (default_config cpus) = Ok (c, OPaths paths versions printed) -> valid re_ok c /\ settled c.
Proof.
  intros cpus re_ok ef cwd cfg det args c paths versions printed C H. split; [|exact (parse_settled _ _ _ _ _ _ _ _ _ _ _ _ H)].
  eapply parse_valid; [exact C|exact H|]. apply v_default. exact C.
Qed.
Print Assumptions c74_run.

(** The verbosity is not negative, unless the [DEFAULT] section of a config file says so. *)
Theorem c74_verbose_partial : forall cpus re_ok ef cwd cfg det args c out,
  (forall f s, cfg f = CfgSection s -> calm s) ->
  parse cpus re_ok ef cwd cfg det args (default_config cpus) = Ok (c, out) -> 0 <= c_verbose c.
Proof. intros cpus re_ok ef cwd cfg det args c out Cm H. refine (parse_loud cpus re_ok ef cwd cfg det args _ c out Cm H _). unfold loud. cbn. discriminate. Qed.
Print Assumptions c74_verbose_partial.

Definition lines_of (l : list string) : string := join nl l.
Definition default_negative : string := lines_of ["[DEFAULT]"; "verbose = -1"; "[vermin]"; "verbose ="; ""].
Theorem c74_verbose_refuted : exists text re_ok args c paths versions printed,
  parse 4 re_ok (fun _ => None) "/w" (fun _ => cfg_of_text 4 text) (Ok (Some "/w/vermin.ini")) args (default_config 4) = Ok (c, OPaths paths versions printed) /\
  c_verbose c < 0.
Proof. exists default_negative, (fun _ => true), ["a.py"]. do 4 eexists. split; [vm_compute; reflexivity|]. vm_compute. reflexivity. Qed.
Print Assumptions c74_verbose_refuted.

(** A file that says a bit of everything, and options on top. *)
Definition everything : string := lines_of ["[vermin]"; "processes = 0"; "verbose = 1"; "only_show_violations = yes"; "targets = 3.4-"; "backports ="; " enum"; " enum";
  "features = union-types"; "exclusion_regex ="; " x+"; ""].
Example c74_case : exists c printed,
  parse 4 (fun r => negb (String.eqb r "(")) (fun _ => None) "/w" (fun _ => cfg_of_text 4 everything) (Ok (Some "/w/vermin.ini"))
    ["-t=2.7"; "-q"; "--backport"; "typing"; "a.py"] (default_config 4) = Ok (c, OPaths ["a.py"] false printed) /\
  c_processes c = 4 /\ c_verbose c = 2 /\ c_targets c = [(true, (2, 7)); (false, (3, 4))] /\ c_backports c = ["enum"; "typing"] /\
  c_features c = ["union-types"] /\ c_exclusion_regex_set c = ["x+"] /\ c_quiet c = true /\
  parse_file 4 (fun r => negb (String.eqb r "(")) (cfg_of_text 4 (lines_of ["[vermin]"; "exclusion_regex = ("; ""])) = None /\
  parse_file 4 (fun _ => true) (cfg_of_text 4 (lines_of ["[vermin]"; "verbose = -1"; ""])) = None.
Proof. do 2 eexists. split; [vm_compute; reflexivity|]. vm_compute. repeat split. Qed.
