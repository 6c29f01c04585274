(** Files that are not for a run to analyse (C90). *)
From Verif Require Import PyBase Utility RulesData Rules Config Paths Pool Detection Parser Arguments Processor Main Spec_Base Spec_Detection.

Section Bystanders.
  Variables (cwd : string) (search : string -> string -> bool) (c : config).

  (** A path, [d] folders below a given one, at which there is nothing for a run: it is left out, hidden, or neither a folder to
      look into nor a file to analyse. *)
  Definition nothing_at (fs : fsys) (d : nat) (p : string) : Prop :=
    ~ not_left_out search c (ignore_chars_of c) p \/ ~ shown (c_analyze_hidden c) p \/
    (~ is_folder fs (match d with O => true | _ => c_scan_symlink_folders c end) (actual cwd c p) /\
     ~ (is_file fs (actual cwd c p) /\ (d = O \/ probably_python_file fs (actual cwd c p) = true))).
  (** Nor is there at the entry [n] of the folder [p]. *)
  Definition no_concern (fs : fsys) (d : nat) (p n : string) : Prop :=
    (c_analyze_hidden c = false /\ begins "." n) \/ nothing_at fs (S d) (path_join (actual cwd c p) n).

  (** The entries of one folder that are not in the other one are of no concern. *)
  Definition listed_besides (fs : fsys) (d : nat) (p : string) (l l' : option (list string)) : Prop :=
    forall names n, l = Some names -> In n names -> no_concern fs d p n \/ exists names', l' = Some names' /\ In n names'.

  (** At a path two file systems are alike for a run: either there is nothing for it in both of them, or the same kind of thing with
      the same first lines and with the same entries besides those of no concern. *)
  Definition alike_at (fs fs' : fsys) (d : nat) (p : string) : Prop :=
    (nothing_at fs d p /\ nothing_at fs' d p) \/
    let q := actual cwd c p in
    fs_lstat fs' q = fs_lstat fs q /\ fs_stat fs' q = fs_stat fs q /\ fs_lines fs' q = fs_lines fs q /\
    listed_besides fs d p (fs_listdir fs q) (fs_listdir fs' q) /\ listed_besides fs' d p (fs_listdir fs' q) (fs_listdir fs q).
End Bystanders.

(** They are alike at all paths that a run comes to in both of them. *)
Definition alike_for (w w' : world) (c : config) (paths : list string) : Prop :=
  let looks (w : world) := looked_at (w_fs w) (w_cwd w) (w_search w) c (c_analyze_hidden c) (ignore_chars_of c) (c_scan_symlink_folders c) (input_paths w c paths) in
  forall d p, looks w d p -> looks w' d p -> alike_at (w_cwd w) (w_search w) c (w_fs w) (w_fs w') d p.

(** Two machines that differ only in the file system and in what is in the files. *)
Record same_machine (w w' : world) : Prop := {
  sm_cpus : w_cpus w' = w_cpus w; sm_major : w_major w' = w_major w; sm_cwd : w_cwd w' = w_cwd w; sm_re : w_re_ok w' = w_re_ok w;
  sm_search : w_search w' = w_search w; sm_excl : w_excl_file w' = w_excl_file w; sm_cfg : w_cfg_file w' = w_cfg_file w;
  sm_detected : w_detected w' = w_detected w; sm_hooks : w_hooks w' = w_hooks w
}.
