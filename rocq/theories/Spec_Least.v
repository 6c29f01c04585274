(** What the exit codes for several targets have to do with each other and with the report (C84). *)
From Verif Require Import PyBase Utility Config Paths Detection Arguments Processor Main Spec_Base Spec_Utility Spec_Main Spec_Same.

(** A command line that is understood, with files to analyse. *)
Definition asks (w : world) (args : list string) (fuel : nat) (c : config) (versions : bool) (files : list string) : Prop :=
  exists paths printed,
    parse (w_cpus w) (w_re_ok w) (w_excl_file w) (w_cwd w) (w_cfg_file w) (w_detected w) args (default_config (w_cpus w)) = Ok (c, OPaths paths versions printed) /\
    found_files w c fuel paths = Some (Ok files).

(** The configurations differ in targets, in what is printed or in how many processes there are. *)
Definition same_question (c c' : config) : Prop := same_reading c c' /\ c_format c = c_format c'.

(** The run ends with exit code 0. *)
Definition succeeds (w : world) (fuel : nat) (args : list string) : Prop := exists out, main w fuel args = Some (out, Ok 0).

(** A version of the major [M] that [v] is enough for. *)
Definition enough (m : mins) (v : ver) : Prop := exists r, required m r /\ fst r = fst v /\ ver_le r v.
